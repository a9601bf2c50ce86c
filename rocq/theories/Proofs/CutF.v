(** Files that are cut off: the statements. *)
From Coq Require Import Lia ZifyBool ZifyNat.
From Verif Require Import Model.Base Model.Errors Model.Sections Model.Reader Model.Parser Model.Context Model.Decoder.
From Verif Require Import Spec.ReaderS Spec.ParserS Spec.SessionS Spec.CutS.
From Verif Require Import Proofs.BaseLemmas Proofs.CutX.

Lemma cut_len n d : 0 <= n <= zlen d -> zlen (cut n d) = n.
Proof. intros H. unfold cut, zlen in *. rewrite firstn_length. lia. Qed.
Lemma cut_app n d : d = cut n d ++ skipn (Z.to_nat n) d.
Proof. symmetry. apply firstn_skipn. Qed.

Section Cut.
  Variables (d : list byte) (n p : Z).
  Hypothesis HL : zlen d < 2 ^ 63.
  Hypothesis Hp : 0 <= p <= n.
  Hypothesis Hn : n <= zlen d.
  Lemma len : zlen (cut n d) = n. Proof. apply cut_len. lia. Qed.
  Lemma HL' : zlen (cut n d ++ skipn (Z.to_nat n) d) < 2 ^ 63. Proof. rewrite <- cut_app. exact HL. Qed.
  Lemma Hp' : 0 <= p <= zlen (cut n d). Proof. rewrite len. exact Hp. Qed.
  Lemma sections : forall m sc l it, Steps (section_stream m (MkSrc (cut n d) p sc)) (map Ok l) it ->
    exists it', Steps (section_stream m (MkSrc d p [])) (map Ok l) it'.
  Proof. intros m sc l it H. pose proof (sections_left m _ _ p HL' Hp' sc l it H) as K. rewrite <- cut_app in K. exact K. Qed.
  Lemma crash : forall m sc l, Run (section_stream m (MkSrc (cut n d) p sc)) (map Ok l) Crash -> Run (section_stream m (MkSrc d p [])) (map Ok l) Crash.
  Proof. intros m sc l H. pose proof (crash_stays m _ _ p HL' Hp' sc l H) as K. rewrite <- cut_app in K. exact K. Qed.
  Lemma error : forall m sc l x, x <> ReadErrorEof -> (exists it, Steps (section_stream m (MkSrc (cut n d) p sc)) (map Ok l ++ [Err x]) it) ->
    exists it, Steps (section_stream m (MkSrc d p [])) (map Ok l ++ [Err x]) it.
  Proof. intros m sc l x N H. pose proof (error_stays m _ _ p HL' Hp' sc l x N H) as K. rewrite <- cut_app in K. exact K. Qed.
  Lemma outcome_any : forall m fuel fuel', n < Z.of_nat fuel -> zlen d < Z.of_nat fuel' ->
    match grib2_read m fuel (MkSrc (cut n d) p []) with
    | Ret (Ok _) => True
    | Ret (Err (EParse e)) => e = ReadErrorEof \/ (exists k, e = UnexpectedEndOfData k) \/ grib2_read m fuel' (MkSrc d p []) = Ret (Err (EParse e))
    | Panic => grib2_read m fuel' (MkSrc d p []) = Panic
    | _ => False
    end.
  Proof.
    intros m fuel fuel' H H'. pose proof (read_left m _ _ p HL' Hp' fuel fuel') as K. rewrite <- cut_app, len in K. exact (K H H').
  Qed.
  Variables (f : nat) (g : grib2).
  Hypothesis HR : grib2_read Checked f (MkSrc d p []) = Ret (Ok g).
  Lemma HR' : grib2_read Checked f (MkSrc (cut n d ++ skipn (Z.to_nat n) d) p []) = Ret (Ok g). Proof. rewrite <- cut_app. exact HR. Qed.
  Lemma outcome_valid : forall m fuel, n < Z.of_nat fuel ->
    match grib2_read m fuel (MkSrc (cut n d) p []) with
    | Ret (Ok g') => cuts_no_message n (g_sections g) /\ exists l us, g_sections g = g_sections g' ++ l /\ g_subs g = g_subs g' ++ us
    | Ret (Err (EParse e)) => ~ cuts_no_message n (g_sections g) /\ (e = ReadErrorEof \/ exists k, e = UnexpectedEndOfData k)
    | _ => False
    end.
  Proof. intros m fuel H. pose proof (cut_read _ _ p f g HL' Hp' HR' m fuel) as K. rewrite len in K. exact (K H). Qed.
  Lemma any_schedule : forall m fuel sc g', grib2_read m fuel (MkSrc (cut n d) p sc) = Ret (Ok g') ->
    exists l us, g_sections g = g_sections g' ++ l /\ g_subs g = g_subs g' ++ us.
  Proof. intros m fuel sc g' H. exact (ok_prefix _ _ p f g HL' Hp' HR' m fuel sc g' H). Qed.
  Lemma same_values : forall m fuel g', grib2_read m fuel (MkSrc (cut n d) p []) = Ret (Ok g') -> forall w v, In w (g_subs g') -> make_view g' w = Some v ->
    In w (g_subs g) /\ make_view g w = Some v /\ forall m', decoded_alone m' (cut n d) v = decoded_alone m' d v.
  Proof. intros m fuel g' H w v W V. pose proof (cut_views _ _ p f g HL' Hp' HR' m fuel g' H w v W V) as K. rewrite <- cut_app in K. exact K. Qed.
End Cut.
