.lia.cache
.nia.cache
.nra.cache
.nia.cache
.lia.cache
.nra.cache
.lia.cache
.nia.cache
