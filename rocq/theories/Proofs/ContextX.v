(** The submessage iterator, views, templates, re-reading payloads. *)
From Coq Require Import Lia ZifyBool ZifyNat Sorting.Sorted Sorting.Permutation.
From Verif Require Import Model.Base Model.Helpers Model.Errors Model.Sections Model.Reader Model.Parser Model.Context.
From Verif Require Import Spec.ReaderS Spec.ParserS Spec.ContextS Proofs.BaseLemmas Proofs.ReaderP Proofs.SectionStreamP Proofs.TableP Proofs.FileP.

Lemma entry_get : forall g s p, entry (g_sections g) s p -> view_section g p = Some (p, s).
Proof.
  intros g s p (Hp & E). unfold view_section, get. replace (0 <=? p) with true by lia. now rewrite E.
Qed.

Lemma view_shows : forall g u w, indexes (g_sections g) u w -> g_sections g <> [] ->
  exists v, make_view g w = Some v /\ shows (g_sections g) u v.
Proof.
  intros g u w (M & I & C0 & C1 & C2 & C3 & C4 & C5 & C6 & C7 & C8) Hne.
  unfold make_view. rewrite (entry_get _ _ _ C0), (entry_get _ _ _ C1), (entry_get _ _ _ C3), (entry_get _ _ _ C4),
    (entry_get _ _ _ C5), (entry_get _ _ _ C6), (entry_get _ _ _ C7).
  assert (E8 : exists s8, view_section g (u_8 w) = Some (u_8 w, s8) /\
    (s8 = u_8 u \/ u_8 u = no_end_section /\ nth_error (g_sections g) 0 = Some s8)).
  { destruct C8 as [C8|(A & B)].
    - exists (u_8 u). split; [exact (entry_get _ _ _ C8)|auto].
    - rewrite B. destruct (g_sections g) as [|s8 l] eqn:E; [congruence|]. exists s8. split; [unfold view_section, get; rewrite E; reflexivity|]. right. auto. }
  destruct E8 as (s8 & -> & H8). eexists. split; [reflexivity|].
  unfold shows. cbn [u_mi u_si u_0 u_1 u_2 u_3 u_4 u_5 u_6 u_7 u_8 snd].
  do 4 (split; [auto|]). split; [|auto 10].
  unfold opt_entry in C2. destruct (u_2 u), (u_2 w); try contradiction; [|reflexivity].
  rewrite (entry_get _ _ _ C2). reflexivity.
Qed.

(** Facts about a file that has been read. *)
Lemma views : forall m fuel s g, grib2_read m fuel s = Ret (Ok g) -> zlen (data s) < 2 ^ 63 -> 0 <= pos s ->
  exists ms us vs, Forall wf_message ms /\ g_sections g = flat_map message_sections ms /\ submessages_of_all 0 ms us /\
    Forall2 (shows (g_sections g)) us vs /\ Forall2 (fun w v => make_view g w = Some v) (g_subs g) vs.
Proof.
  intros m fuel s g E Hl Hp. destruct (grib2_read_inv m fuel s g E Hl Hp) as (HR & ms & us & W & Es & U & F).
  exists ms, us.
  assert (Hv : exists vs, Forall2 (shows (g_sections g)) us vs /\ Forall2 (fun w v => make_view g w = Some v) (g_subs g) vs).
  { clear - F. induction F as [|u w us ws Hx HF IH].
    - exists []. split; constructor.
    - destruct IH as (vs & A & B). destruct (view_shows g u w Hx) as (v & V & S).
      { destruct Hx as (_ & _ & (P & Q) & _). intro Z. rewrite Z in Q. destruct (Z.to_nat (u_0 w)); discriminate. }
      exists (v :: vs). split; constructor; assumption. }
  destruct Hv as (vs & A & B). exists vs. auto 10.
Qed.

Definition all_views (g : grib2) (vs : list view) : Prop := Forall2 (fun w v => make_view g w = Some v) (g_subs g) vs.

Lemma all_views_nth : forall g vs k, all_views g vs ->
  match nth_error vs k with
  | Some v => exists w, nth_error (g_subs g) k = Some w /\ make_view g w = Some v
  | None => nth_error (g_subs g) k = None
  end.
Proof.
  intros g vs k H. unfold all_views in H. revert k. induction H as [|w v ws vs Hx HF IH]; intros [|k]; cbn [nth_error]; auto.
  - exists w. auto.
  - exact (IH k).
Qed.

Lemma next_at : forall g vs k alive, all_views g vs ->
  sub_iter_next g (Z.of_nat k) alive =
  match nth_error vs k with
  | None => Ret (None, Z.of_nat k, alive)
  | Some v => if alive then Panic else Ret (Some v, Z.of_nat (S k), true)
  end.
Proof.
  intros g vs k alive H. unfold sub_iter_next, get. replace (0 <=? Z.of_nat k) with true by lia. rewrite Nat2Z.id.
  pose proof (all_views_nth g vs k H) as P. destruct (nth_error vs k) as [v|].
  - destruct P as (w & -> & ->). destruct alive; [reflexivity|]. repeat f_equal. lia.
  - rewrite P. reflexivity.
Qed.

Lemma iterate_all : forall g vs0 vs, all_views g (vs0 ++ vs) ->
  run_calls g (zlen vs0) false (next_drop (length vs) ++ [CNext; CNext]) = Ret (map Some vs ++ [None; None]).
Proof.
  intros g vs0 vs. revert vs0. induction vs as [|v vs IH]; intros vs0 H.
  - cbn [next_drop app length map run_calls]. unfold zlen. rewrite (next_at _ _ _ _ H).
    assert (N : nth_error (vs0 ++ []) (length vs0) = None) by (apply nth_error_None; rewrite app_nil_r; lia).
    rewrite N. cbn [bind run_calls]. rewrite (next_at _ _ _ _ H), N. reflexivity.
  - cbn [next_drop length app map run_calls]. unfold zlen at 1. rewrite (next_at _ _ _ _ H).
    rewrite nth_error_app2, Nat.sub_diag by lia. cbn [nth_error bind run_calls].
    specialize (IH (vs0 ++ [v])). rewrite <- app_assoc in IH. specialize (IH H).
    replace (Z.of_nat (S (length vs0))) with (zlen (vs0 ++ [v])) by (unfold zlen; rewrite app_length; cbn [length]; lia).
    rewrite IH. reflexivity.
Qed.

Lemma count_subs : forall g vs, all_views g vs -> length vs = length (g_subs g).
Proof. intros g vs H. symmetry. exact (F2_length _ _ _ _ _ H). Qed.

(** C27 *)
Lemma iteration : forall m fuel s g, grib2_read m fuel s = Ret (Ok g) -> zlen (data s) < 2 ^ 63 -> 0 <= pos s ->
  exists ms us vs, Forall wf_message ms /\ g_sections g = flat_map message_sections ms /\ submessages_of_all 0 ms us /\
    Forall2 (shows (g_sections g)) us vs /\ zlen vs = g_len g /\
    run_calls g 0 false (next_drop (length vs) ++ [CNext; CNext]) = Ret (map Some vs ++ [None; None]).
Proof.
  intros m fuel s g E Hl Hp. destruct (views m fuel s g E Hl Hp) as (ms & us & vs & A & B & C & D & F).
  exists ms, us, vs. split; [exact A|]. split; [exact B|]. split; [exact C|]. split; [exact D|].
  split. { unfold g_len, zlen. now rewrite (count_subs g vs F). }
  exact (iterate_all g [] vs F).
Qed.

Lemma nexts_then : forall g vs k cs v, all_views g vs -> nth_error vs k = Some v ->
  run_calls g 0 false (next_drop k ++ cs) =
  let! r := run_calls g (Z.of_nat k) false cs in Ret (map Some (firstn k vs) ++ r).
Proof.
  intros g vs k cs v H Hk. assert (G : forall n j, (j + n <= length vs)%nat ->
    run_calls g (Z.of_nat j) false (next_drop n ++ cs) = let! r := run_calls g (Z.of_nat (j + n)) false cs in Ret (map Some (firstn n (skipn j vs)) ++ r)).
  { induction n as [|n IH]; intros j Hj.
    - cbn [next_drop app firstn map]. rewrite Nat.add_0_r. destruct (run_calls g (Z.of_nat j) false cs); reflexivity.
    - cbn [next_drop app run_calls]. rewrite (next_at _ _ _ _ H).
      destruct (nth_error vs j) as [x|] eqn:Ex; [|apply nth_error_None in Ex; lia].
      cbn [bind run_calls]. rewrite (IH (S j)) by lia. replace (S j + n)%nat with (j + S n)%nat by lia.
      assert (Sk : skipn j vs = x :: skipn (S j) vs).
      { clear - Ex. revert vs Ex. induction j as [|j IH]; intros [|y vs] Ex; try discriminate; cbn in *; [congruence|]. apply IH. exact Ex. }
      rewrite Sk. cbn [firstn map app]. destruct (run_calls g (Z.of_nat (j + S n)) false cs); reflexivity. }
  assert (k < length vs)%nat by (apply nth_error_Some; congruence).
  specialize (G k O ltac:(lia)). cbn [Nat.add skipn] in G. exact G.
Qed.

(** [nth n] of a fresh iterator is the [n+1]-st [next]. *)
Lemma nth_fresh : forall g vs n, all_views g vs ->
  run_calls g 0 false [CNth (Z.of_nat n)] = Ret [nth_error vs n].
Proof.
  intros g vs n H. cbn [run_calls]. unfold sub_iter_nth. rewrite (next_at _ _ _ _ H).
  destruct (nth_error vs n); reflexivity.
Qed.

(** [nth n] after [k] submessages: still submessage number [n] of the file. *)
Lemma nth_absolute : forall g vs n k, all_views g vs -> (k < length vs)%nat ->
  run_calls g 0 false (next_drop k ++ [CNth (Z.of_nat n)]) = Ret (map Some (firstn k vs) ++ [nth_error vs n]).
Proof.
  intros g vs n k H Hk. destruct (nth_error vs k) as [v|] eqn:E; [|apply nth_error_None in E; lia].
  rewrite (nexts_then g vs k _ v H E). cbn [run_calls]. unfold sub_iter_nth. rewrite (next_at _ _ _ _ H).
  destruct (nth_error vs n); reflexivity.
Qed.

Lemma file_nth : forall m fuel s g, grib2_read m fuel s = Ret (Ok g) -> zlen (data s) < 2 ^ 63 -> 0 <= pos s ->
  exists vs, zlen vs = g_len g /\ run_calls g 0 false (next_drop (length vs)) = Ret (map Some vs) /\
  forall k n, (k < length vs)%nat ->
    run_calls g 0 false (next_drop k ++ [CNth (Z.of_nat n)]) = Ret (map Some (firstn k vs) ++ [nth_error vs n]).
Proof.
  intros m fuel s g E Hl Hp. destruct (views m fuel s g E Hl Hp) as (ms & us & vs & _ & _ & _ & _ & F).
  exists vs. split; [unfold g_len, zlen; now rewrite (count_subs g vs F)|]. split.
  - pose proof (iterate_all g [] vs F) as I. rewrite zlen_nil in I.
    assert (G : forall cs cs' p a l, run_calls g p a (cs ++ cs') = Ret l -> exists l1 l2, l = l1 ++ l2 /\ run_calls g p a cs = Ret l1 /\ length l2 = length (filter (fun c => match c with CDrop => false | _ => true end) cs')).
    { clear. assert (L : forall cs p a l, run_calls g p a cs = Ret l -> length l = length (filter (fun c => match c with CDrop => false | _ => true end) cs)).
      { induction cs as [|[|n|] cs IH]; intros p a l H; cbn [run_calls] in H; [injection H as <-; reflexivity| | |exact (IH _ _ _ H)].
        - destruct (sub_iter_next g p a) as [[[v p'] a']| |]; cbn [bind] in H; try discriminate.
          destruct (run_calls g p' a' cs) eqn:E; cbn [bind] in H; try discriminate. injection H as <-. cbn [filter length]. f_equal. exact (IH _ _ _ E).
        - destruct (sub_iter_nth g n p a) as [[[v p'] a']| |]; cbn [bind] in H; try discriminate.
          destruct (run_calls g p' a' cs) eqn:E; cbn [bind] in H; try discriminate. injection H as <-. cbn [filter length]. f_equal. exact (IH _ _ _ E). }
      induction cs as [|[|n|] cs IH]; intros cs' p a l H; cbn [app run_calls] in H.
      - exists [], l. split; [reflexivity|]. split; [reflexivity|]. exact (L _ _ _ _ H).
      - cbn [run_calls]. destruct (sub_iter_next g p a) as [[[v p'] a']| |]; cbn [bind] in *; try discriminate.
        destruct (run_calls g p' a' (cs ++ cs')) eqn:E; cbn [bind] in H; try discriminate. injection H as <-.
        destruct (IH _ _ _ _ E) as (l1 & l2 & -> & -> & Q). exists (v :: l1), l2. auto.
      - cbn [run_calls]. destruct (sub_iter_nth g n p a) as [[[v p'] a']| |]; cbn [bind] in *; try discriminate.
        destruct (run_calls g p' a' (cs ++ cs')) eqn:E; cbn [bind] in H; try discriminate. injection H as <-.
        destruct (IH _ _ _ _ E) as (l1 & l2 & -> & -> & Q). exists (v :: l1), l2. auto.
      - exact (IH _ _ _ _ H). }
    destruct (G _ _ _ _ _ I) as (l1 & l2 & E1 & E2 & L). rewrite E2. f_equal.
    assert (length l1 = length (map Some vs)).
    { apply (f_equal (@length _)) in E1. rewrite !app_length in E1. cbn in L, E1. lia. }
    clear - E1 H. revert l1 E1 H. induction (map Some vs) as [|x l IH]; intros [|y l1] E H; try discriminate; [reflexivity|].
    cbn [app] in E. injection E as <- E. f_equal. apply IH; [exact E|]. cbn [length] in H. lia.
  - intros k n Hk. exact (nth_absolute g vs n k F Hk).
Qed.

(** Any sequence of calls. *)
Lemma calls_answers : forall g vs, all_views g vs -> forall cs p held,
  Forall (fun c => match c with CNth n => 0 <= n | _ => True end) cs ->
  run_calls g (Z.of_nat p) held cs = match answers vs p held cs with Some l => Ret l | None => Panic end.
Proof.
  intros g vs H. induction cs as [|c cs IH]; intros p held Hc; [reflexivity|].
  inversion Hc as [|? ? Hc1 Hc2]; subst. destruct c as [|n|]; cbn [run_calls answers].
  - rewrite (next_at _ _ _ _ H). destruct (nth_error vs p); [destruct held|]; cbn [bind]; [reflexivity| |].
    + rewrite (IH (S p) true Hc2). destruct (answers vs (S p) true cs); reflexivity.
    + rewrite (IH p held Hc2). destruct (answers vs p held cs); reflexivity.
  - unfold sub_iter_nth. rewrite <- (Z2Nat.id n Hc1) at 1. rewrite (next_at _ _ _ _ H).
    destruct (nth_error vs (Z.to_nat n)); [destruct held|]; cbn [bind]; [reflexivity| |].
    + rewrite (IH (S (Z.to_nat n)) true Hc2). destruct (answers vs (S (Z.to_nat n)) true cs); reflexivity.
    + rewrite (IH (Z.to_nat n) held Hc2). destruct (answers vs (Z.to_nat n) held cs); reflexivity.
  - exact (IH p false Hc2).
Qed.
Lemma calls : forall m fuel s g, grib2_read m fuel s = Ret (Ok g) -> zlen (data s) < 2 ^ 63 -> 0 <= pos s ->
  exists ms us vs, Forall wf_message ms /\ g_sections g = flat_map message_sections ms /\ submessages_of_all 0 ms us /\
    Forall2 (shows (g_sections g)) us vs /\ zlen vs = g_len g /\
    forall cs, Forall (fun c => match c with CNth n => 0 <= n | _ => True end) cs ->
      run_calls g 0 false cs = match answers vs 0 false cs with Some l => Ret l | None => Panic end.
Proof.
  intros m fuel s g E Hl Hp. destruct (views m fuel s g E Hl Hp) as (ms & us & vs & A & B & C & D & F).
  exists ms, us, vs. split; [exact A|]. split; [exact B|]. split; [exact C|]. split; [exact D|].
  split. { unfold g_len, zlen. now rewrite (count_subs g vs F). }
  intros cs Hc. exact (calls_answers g vs F cs 0 false Hc).
Qed.

(** ** size_hint *)
Lemma size_all : forall m g k, 0 <= k < 2 ^ 64 -> g_len g < 2 ^ 64 ->
  sub_iter_size m g k =
  if k <=? g_len g then Ret (g_len g - k) else match m with Checked => Panic | Wrapping => Ret (2 ^ 64 + g_len g - k) end.
Proof.
  intros m g k H1 H2. unfold sub_iter_size. fold (g_len g). pose proof (zlen_nonneg _ (g_subs g)) as Z0. unfold g_len in *.
  destruct (Z.leb_spec k (zlen (g_subs g))); [apply arith_U64_ok; lia|].
  destruct m; [apply arith_panic; lia|]. rewrite arith_U64_W. f_equal. rewrite <- (Z.mod_add _ 1) by lia. rewrite Z.mod_small; lia.
Qed.

(** ** C28 *)
Lemma disciplined_ok : forall g vs, all_views g vs -> forall cs p alive, 0 <= p -> disciplined alive cs ->
  Forall (fun c => match c with CNth n => 0 <= n | _ => True end) cs -> exists l, run_calls g p alive cs = Ret l.
Proof.
  intros g vs H. induction cs as [|c cs IH]; intros p alive Hp Hd Hc; [exists []; reflexivity|].
  inversion Hc as [|? ? Hc1 Hc2]; subst. destruct c as [|n|]; cbn [disciplined run_calls] in *.
  - destruct Hd as (-> & Hd). rewrite <- (Z2Nat.id p Hp). rewrite (next_at _ _ _ _ H).
    destruct (nth_error vs (Z.to_nat p)); cbn [bind].
    + destruct (IH (Z.of_nat (S (Z.to_nat p))) true ltac:(lia) Hd Hc2) as (l & ->). eexists. reflexivity.
    + assert (Hd' : disciplined false cs). { clear - Hd. destruct cs as [|[]]; cbn in *; auto; destruct Hd; discriminate. }
      destruct (IH (Z.of_nat (Z.to_nat p)) false ltac:(lia) Hd' Hc2) as (l & ->). eexists. reflexivity.
  - destruct Hd as (-> & Hd). unfold sub_iter_nth. rewrite <- (Z2Nat.id n Hc1). rewrite (next_at _ _ _ _ H).
    destruct (nth_error vs (Z.to_nat n)); cbn [bind].
    + destruct (IH (Z.of_nat (S (Z.to_nat n))) true ltac:(lia) Hd Hc2) as (l & ->). eexists. reflexivity.
    + assert (Hd' : disciplined false cs). { clear - Hd. destruct cs as [|[]]; cbn in *; auto; destruct Hd; discriminate. }
      destruct (IH (Z.of_nat (Z.to_nat n)) false ltac:(lia) Hd' Hc2) as (l & ->). eexists. reflexivity.
  - exact (IH p false Hp Hd Hc2).
Qed.

Lemma exclusive : forall m fuel s g, grib2_read m fuel s = Ret (Ok g) -> zlen (data s) < 2 ^ 63 -> 0 <= pos s ->
  (forall cs, disciplined false cs -> Forall (fun c => match c with CNth n => 0 <= n | _ => True end) cs ->
     exists l, run_calls g 0 false cs = Ret l) /\
  (forall k cs, Z.of_nat k + 2 <= g_len g -> run_calls g 0 false (next_drop k ++ CNext :: CNext :: cs) = Panic) /\
  (forall k n cs, Z.of_nat k + 1 <= g_len g -> 0 <= n < g_len g -> run_calls g 0 false (next_drop k ++ CNext :: CNth n :: cs) = Panic).
Proof.
  intros m fuel s g E Hl Hp. destruct (views m fuel s g E Hl Hp) as (ms & us & vs & _ & _ & _ & _ & F).
  pose proof (count_subs g vs F) as HC.
  split; [|split].
  - intros cs Hd Hc. exact (disciplined_ok g vs F cs 0 false ltac:(lia) Hd Hc).
  - intros k cs Hk. unfold g_len, zlen in Hk.
    destruct (nth_error vs k) as [v|] eqn:E1; [|apply nth_error_None in E1; lia].
    destruct (nth_error vs (S k)) as [v'|] eqn:E2; [|apply nth_error_None in E2; lia].
    rewrite (nexts_then g vs k _ v F E1). cbn [run_calls]. rewrite (next_at _ _ _ _ F), E1. cbn [bind run_calls].
    rewrite (next_at _ _ _ _ F), E2. reflexivity.
  - intros k n cs Hk Hn. unfold g_len, zlen in *.
    destruct (nth_error vs k) as [v|] eqn:E1; [|apply nth_error_None in E1; lia].
    destruct (nth_error vs (Z.to_nat n)) as [v'|] eqn:E2; [|apply nth_error_None in E2; lia].
    rewrite (nexts_then g vs k _ v F E1). cbn [run_calls]. rewrite (next_at _ _ _ _ F), E1. cbn [bind run_calls].
    unfold sub_iter_nth. rewrite <- (Z2Nat.id n) by lia. rewrite (next_at _ _ _ _ F), E2. reflexivity.
Qed.

(** ** C30: templates *)
Lemma tmpl_leb_spec : forall a b, tmpl_leb a b = true <-> (tmpl_lt a b \/ a = b).
Proof.
  intros [a1 a2] [b1 b2]. unfold tmpl_leb, tmpl_lt. cbn [fst snd]. split.
  - intros H. destruct (Z.eq_dec a1 b1); [|left; lia]. destruct (Z.eq_dec a2 b2); [right; congruence|left; lia].
  - intros [H|H]; [lia|]. injection H as -> ->. lia.
Qed.
Lemma tmpl_lt_trans : forall a b c, tmpl_lt a b -> tmpl_lt b c -> tmpl_lt a c.
Proof. intros [] [] []. unfold tmpl_lt. cbn [fst snd]. lia. Qed.
Lemma tmpl_total : forall a b, tmpl_leb a b = false -> tmpl_lt b a.
Proof. intros [a1 a2] [b1 b2]. unfold tmpl_leb, tmpl_lt. cbn [fst snd]. lia. Qed.

Lemma insert_in : forall x y l, In y (insert_tmpl x l) <-> y = x \/ In y l.
Proof.
  intros x y. induction l as [|z l IH]; cbn [insert_tmpl In]; [intuition|].
  destruct (tmpl_leb x z); cbn [In]; [intuition|]. rewrite IH. intuition.
Qed.
Lemma insert_sorted : forall x l, StronglySorted tmpl_lt l -> ~ In x l -> StronglySorted tmpl_lt (insert_tmpl x l).
Proof.
  intros x l H. induction H as [|z l HS IH HF]; intros Hn; cbn [insert_tmpl].
  - repeat constructor.
  - destruct (tmpl_leb x z) eqn:E.
    + apply tmpl_leb_spec in E. destruct E as [E| ->]; [|exfalso; apply Hn; left; reflexivity].
      constructor; [constructor; assumption|]. constructor; [exact E|].
      eapply Forall_impl; [|exact HF]. intros a Ha. eapply tmpl_lt_trans; eassumption.
    + constructor; [apply IH; intro; apply Hn; right; assumption|].
      apply Forall_forall. intros y Hy. apply insert_in in Hy. destruct Hy as [->|Hy]; [apply tmpl_total; exact E|].
      rewrite Forall_forall in HF. apply HF. exact Hy.
Qed.
Lemma sort_spec : forall l, NoDup l -> StronglySorted tmpl_lt (sort_tmpl l) /\ forall y, In y (sort_tmpl l) <-> In y l.
Proof.
  induction l as [|x l IH]; intros H; cbn [sort_tmpl fold_right]; [split; [constructor|reflexivity]|].
  inversion H as [|? ? Hx Hl]; subst. destruct (IH Hl) as (S & I). split.
  - apply insert_sorted; [exact S|]. intro F. apply Hx. apply I. exact F.
  - intros y. rewrite insert_in. fold (sort_tmpl l). rewrite I. cbn [In]. intuition.
Qed.

Lemma read_u16_octets : forall p o, 0 <= o -> o + 2 <= zlen p -> read_u16 p o = Ret (be (octets p o 2)).
Proof. intros p o H1 H2. unfold read_u16, read_be. rewrite slice_octets by lia. cbn [bind]. replace (o + 2 - o) with 2 by lia. reflexivity. Qed.

Lemma tmpl_code_spec : forall s, has_template s -> exists o, get_tmpl_code s = Ret o /\ forall c, o = Some c <-> template_of s c.
Proof.
  intros s H. unfold get_tmpl_code, has_template in *. unfold template_of.
  destruct (s_body s) as [[ | | |p|p|p| | ]|].
  4,5,6: unfold grid_tmpl_num, prod_tmpl_num, repr_tmpl_num; rewrite read_u16_octets by lia; cbn [bind]; eexists; (split; [reflexivity|]); intros c; split;
      [intros E; injection E as <-; eexists p, _; split; [auto|reflexivity]
      |intros (q & off & [(E & ->)|[(E & ->)|(E & ->)]] & ->); try discriminate; injection E as ->; reflexivity].
  all: exists None; (split; [reflexivity|]); intros c; split; [discriminate|];
    intros (q & off & [(E & _)|[(E & _)|(E & _)]] & _); discriminate.
Qed.

Lemma codes_spec : forall sects, Forall has_template sects -> exists l, filter_map_out get_tmpl_code sects = Ret l /\
  forall c, In c l <-> exists s, In s sects /\ template_of s c.
Proof.
  intros sects H. induction H as [|s sects Hs HF IH]; cbn [filter_map_out].
  - exists []. split; [reflexivity|]. intros c. split; [intros []|intros (s & [] & _)].
  - destruct IH as (l & E & I). destruct (tmpl_code_spec s Hs) as (o & -> & Ho). cbn [bind]. rewrite E. cbn [bind].
    eexists. split; [reflexivity|]. intros c. destruct o as [c'|].
    + cbn [In]. rewrite I. split.
      * intros [->|(s' & A & B)]; [exists s; split; [left; reflexivity|now apply Ho]|exists s'; split; [right; exact A|exact B]].
      * intros (s' & [<-|A] & B); [left; apply Ho in B; congruence|right; exists s'; auto].
    + rewrite I. split.
      * intros (s' & A & B). exists s'. split; [right; exact A|exact B].
      * intros (s' & [<-|A] & B); [apply Ho in B; discriminate|exists s'; auto].
Qed.

Lemma templates : forall order sects, (forall l, Permutation (order l) l) -> Forall has_template sects ->
  exists l, get_templates order sects = Ret l /\ StronglySorted tmpl_lt l /\
    forall c, In c l <-> exists s, In s sects /\ template_of s c.
Proof.
  intros order sects Ho H. destruct (codes_spec sects H) as (l & E & I). unfold get_templates. rewrite E. cbn [bind].
  eexists. split; [reflexivity|].
  assert (N : NoDup (order (nodup pair_eq_dec l))).
  { eapply Permutation_NoDup; [apply Permutation_sym, Ho|]. apply NoDup_nodup. }
  destruct (sort_spec _ N) as (S & IS). split; [exact S|]. intros c. rewrite IS, <- I.
  split; intros Hc.
  - apply (nodup_In pair_eq_dec). eapply Permutation_in; [apply Ho|exact Hc].
  - eapply Permutation_in; [apply Permutation_sym, Ho|]. apply nodup_In. exact Hc.
Qed.

Lemma header_has_template : forall d x, header_at d x -> has_template x.
Proof.
  intros d x (H0 & H). unfold has_template. destruct (s_num x =? 0) eqn:E0; [destruct H as (_ & _ & ->); exact I|].
  destruct (s_num x =? 8) eqn:E8; [destruct H as (_ & -> & _); exact I|].
  destruct H as (_ & _ & _ & b & -> & Hb). destruct Hb as (Hlen & Hb).
  assert (Z : forall off n, 0 <= off -> 0 <= n -> off + n <= zlen d -> zlen (octets d off n) = n) by (intros; apply zlen_octets; lia).
  destruct Hb as [(E & -> & L)|[(E & -> & L)|[(E & -> & L)|[(E & -> & L)|[(E & -> & L)|[(E & -> & L)|(E & ->)]]]]]]; auto;
    specialize (Hlen ltac:(lia)); rewrite Z; lia.
Qed.

Lemma file_sections_headers : forall m fuel s g, grib2_read m fuel s = Ret (Ok g) -> zlen (data s) < 2 ^ 63 -> 0 <= pos s <= zlen (data s) ->
  Forall (header_at (data s)) (g_sections g).
Proof.
  intros m fuel [d p sc] g E Hl Hp. cbn [data pos] in *.
  destruct (grib2_read_inv m fuel _ g E Hl ltac:(cbn [pos]; lia)) as (HR & _).
  rewrite <- (app_nil_r (map Ok _)) in HR. apply Run_split in HR. destruct HR as (it' & HS & _).
  destruct (steps_tiles m d _ _ it' p p (Inv_start m d p sc Hl Hp) HS) as (s' & e2 & c2 & T & _).
  eapply tiles_headers; [|exact T]. lia.
Qed.

Lemma file_templates : forall m fuel s g order, grib2_read m fuel s = Ret (Ok g) -> zlen (data s) < 2 ^ 63 -> 0 <= pos s <= zlen (data s) ->
  (forall l, Permutation (order l) l) ->
  exists l, get_templates order (g_sections g) = Ret l /\ StronglySorted tmpl_lt l /\
    forall c, In c l <-> exists s, In s (g_sections g) /\ template_of s c.
Proof.
  intros m fuel s g order E Hl Hp Ho. apply templates; [exact Ho|].
  eapply Forall_impl; [|exact (file_sections_headers m fuel s g E Hl Hp)]. intros x. apply header_has_template.
Qed.

(** ** C31: re-reading payloads *)
Lemma reread_spec : forall m s x, header_at (data s) x -> 1 <= s_num x <= 7 -> 5 <= s_size x ->
  s_offset x + s_size x <= zlen (data s) -> zlen (data s) < 2 ^ 63 -> 
  exists s', reread m s x = Ret (Ok (octets (data s) (s_offset x + 5) (s_size x - 5)), s') /\ data s' = data s.
Proof.
  intros m s x (H0 & H) Hn Hs Hl Hd. 
  unfold reread, read_sect_payload_as_slice, rbind, rpure.
  rewrite arith_U64_ok by lia. cbn [bind]. unfold seek_to.
  replace ((0 <=? s_offset x + 5) && (s_offset x + 5 <? 2 ^ 64)) with true by lia. cbn [bind].
  rewrite arith_U64_ok by lia. cbn [bind].
  unfold read_slice, rbind, vec_alloc. replace (s_size x - 5 <=? 2 ^ 63 - 1) with true by lia. unfold rret. cbn [bind].
  destruct (read_exact_spec (s_size x - 5) (MkSrc (data s) (s_offset x + 5) (sched s)) ltac:(lia) ltac:(cbn [pos]; lia)) as (sc & _ & ->).
  cbn [data pos]. replace ((s_size x - 5 =? 0) || (s_offset x + 5 + (s_size x - 5) <=? zlen (data s))) with true by lia.
  eexists. split; [reflexivity|]. reflexivity.
Qed.

(** A section that goes beyond the end of the data is an error. *)
Lemma reread_eof : forall m s x, header_at (data s) x -> 1 <= s_num x <= 7 -> 5 < s_size x ->
  zlen (data s) < s_offset x + s_size x -> zlen (data s) < 2 ^ 63 -> s_offset x <= zlen (data s) ->
  exists s', reread m s x = Ret (Err ReadErrorEof, s').
Proof.
  intros m s x (H0 & H) Hn Hs Hl Hd Ho.
  assert (s_size x < 2 ^ 32).
  { replace (s_num x =? 0) with false in H by lia. replace (s_num x =? 8) with false in H by lia. destruct H as (_ & <- & _).
    apply (octets_be_range (data s) (s_offset x) 4). lia. }
  unfold reread, read_sect_payload_as_slice, rbind, rpure.
  rewrite arith_U64_ok by lia. cbn [bind]. unfold seek_to.
  replace ((0 <=? s_offset x + 5) && (s_offset x + 5 <? 2 ^ 64)) with true by lia. cbn [bind].
  rewrite arith_U64_ok by lia. cbn [bind].
  unfold read_slice, rbind, vec_alloc. replace (s_size x - 5 <=? 2 ^ 63 - 1) with true by lia. unfold rret. cbn [bind].
  destruct (read_exact_spec (s_size x - 5) (MkSrc (data s) (s_offset x + 5) (sched s)) ltac:(lia) ltac:(cbn [pos]; lia)) as (sc & _ & ->).
  cbn [data pos]. replace ((s_size x - 5 =? 0) || (s_offset x + 5 + (s_size x - 5) <=? zlen (data s))) with false by lia.
  eexists. reflexivity.
Qed.


(** The last section of a file that has been read is an end section. *)
Lemma last_is_8 : forall ms a x, Forall wf_message ms -> flat_map message_sections ms = a ++ [x] -> s_num x = 8.
Proof.
  intros ms a x W E. induction ms as [|mm ms _] using rev_ind; [destruct a; discriminate|].
  apply Forall_app in W. destruct W as (_ & W). inversion W as [|? ? W1 _]; subst.
  rewrite flat_map_app in E. cbn [flat_map] in E. rewrite app_nil_r in E. unfold message_sections in E.
  rewrite !app_comm_cons, app_assoc in E. apply app_inj_tail in E. destruct E as (_ & <-). apply W1.
Qed.

Lemma tiles_inside : forall P d l x y r endp cur endp' cur', 0 <= cur -> tiles P d endp cur (l ++ x :: y :: r) endp' cur' ->
  s_offset x + s_size x <= zlen d.
Proof.
  intros P d l x y r endp cur endp' cur' Hc T. apply tiles_app_inv in T. destruct T as (e1 & c1 & Ta & T).
  pose proof (tiles_nonneg _ _ _ _ _ _ _ Hc Ta) as H1.
  apply tiles_inv in T. destruct T as (e2 & c2 & T1 & T). pose proof (tile_cur _ _ _ _ _ _ _ H1 T1) as (<- & _).
  inversion T; subst; try lia. match goal with Q : first_magic _ _ _ |- _ => destruct Q as (F1 & (F2 & F3 & _) & _) end. lia.
Qed.

Lemma file_reread : forall m fuel s g, grib2_read m fuel s = Ret (Ok g) -> zlen (data s) < 2 ^ 63 -> 0 <= pos s <= zlen (data s) ->
  forall x, In x (g_sections g) -> 1 <= s_num x <= 7 -> 5 <= s_size x ->
  s_offset x + s_size x <= zlen (data s) /\
  forall m' p sc, exists s', reread m' (MkSrc (data s) p sc) x = Ret (Ok (octets (data s) (s_offset x + 5) (s_size x - 5)), s') /\ data s' = data s.
Proof.
  intros m fuel s g E Hl Hp x Hx Hn Hs.
  assert (HI : s_offset x + s_size x <= zlen (data s)).
  { destruct s as [d p sc]. cbn [data pos] in *.
    destruct (grib2_read_inv m fuel _ g E Hl ltac:(cbn [pos]; lia)) as (HR & ms & us & W & Es & _).
    rewrite <- (app_nil_r (map Ok _)) in HR. apply Run_split in HR. destruct HR as (it' & HS & _).
    destruct (steps_tiles m d _ _ it' p p (Inv_start m d p sc Hl Hp) HS) as (s' & e2 & c2 & T & _).
    apply in_split in Hx. destruct Hx as (a & b & Ex). destruct b as [|y b].
    - exfalso. rewrite Ex in Es. symmetry in Es. pose proof (last_is_8 ms a x W Es). lia.
    - rewrite Ex in T. eapply tiles_inside; [|exact T]. lia. }
  split; [exact HI|]. intros m' p sc.
  pose proof (file_sections_headers m fuel s g E Hl Hp) as HH. rewrite Forall_forall in HH.
  exact (reread_spec m' (MkSrc (data s) p sc) x (HH x Hx) Hn Hs HI Hl).
Qed.

Lemma file_sizes : forall fuel s g, grib2_read Checked fuel s = Ret (Ok g) -> zlen (data s) < 2 ^ 63 -> 0 <= pos s <= zlen (data s) ->
  forall x, In x (g_sections g) -> 1 <= s_num x <= 7 -> 5 <= s_size x.
Proof.
  intros fuel [d p sc] g E Hl Hp x Hx Hn. cbn [data pos] in *.
  destruct (grib2_read_inv Checked fuel _ g E Hl ltac:(cbn [pos]; lia)) as (HR & _).
  rewrite <- (app_nil_r (map Ok _)) in HR. apply Run_split in HR. destruct HR as (it' & HS & _).
  destruct (steps_tiles Checked d _ _ it' p p (Inv_start Checked d p sc Hl Hp) HS) as (s' & e2 & c2 & T & _).
  apply in_split in Hx. destruct Hx as (a & b & Ex). rewrite Ex in T. apply tiles_app_inv in T. destruct T as (e1 & c1 & _ & T).
  apply tiles_inv in T. destruct T as (e3 & c3 & T & _). inversion T; subst; cbn [s_num s_size] in *; try lia.
Qed.
