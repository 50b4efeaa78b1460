(* PropsErrText.v - C82: the text of an error tells which error it is. *)
From Coq Require Import NArith String Ascii List Lia.
From Verif Require Import ErrText.
From Verif Require V1Errors V2Base.
Import ListNotations.
Local Open Scope string_scope.

(* --- specification --------------------------------------------------------------------------------------------------- *)
(* [reads_as s n]: the digits of [s] are those of the number [n] *)
Inductive reads_as : string -> N -> Prop :=
| reads_one d : (d < 10)%N -> reads_as (String (ascii_of_N (48 + d)) "") d
| reads_more s n d : reads_as s n -> (n <> 0)%N -> (d < 10)%N -> reads_as (s ++ String (ascii_of_N (48 + d)) "") (10 * n + d).
(* the type code in an error *)
Definition code_of (e : V2Base.GTPV2Error) : option N :=
  match e with
  | V2Base.IEInvalidLength t | V2Base.IEIncorrect t | V2Base.MessageInvalidLength t
  | V2Base.MessageMandatoryIEMissing t | V2Base.MessageOptionalIEIncorrect t => Some t
  | _ => None
  end.

(* --- proofs ---------------------------------------------------------------------------------------------------------- *)
Lemma app_nil_s s : s ++ "" = s.
Proof. induction s as [|c s IH]; [reflexivity|]. cbn. rewrite IH. reflexivity. Qed.
Lemma app_assoc_s a b c : (a ++ b) ++ c = a ++ (b ++ c).
Proof. induction a as [|x a IH]; [reflexivity|]. cbn. rewrite IH. reflexivity. Qed.
Lemma app_cancel_l a b c : a ++ b = a ++ c -> b = c.
Proof. induction a as [|x a IH]; [tauto|]. cbn. intros E. injection E as E. auto. Qed.
Lemma app_len a b : String.length (a ++ b) = (String.length a + String.length b)%nat.
Proof. induction a as [|x a IH]; [reflexivity|]. cbn. rewrite IH. reflexivity. Qed.
Lemma app_cancel_r a b c : a ++ c = b ++ c -> a = b.
Proof.
  revert b. induction a as [|x a IH]; intros [|y b] E; [reflexivity| | |].
  - apply (f_equal String.length) in E. cbn in E. rewrite app_len in E. lia.
  - apply (f_equal String.length) in E. cbn in E. rewrite app_len in E. lia.
  - cbn in E. injection E as -> E. f_equal. auto.
Qed.
Lemma snoc_inv s c s' c' : s ++ String c "" = s' ++ String c' "" -> s = s' /\ c = c'.
Proof.
  revert s'. induction s as [|x s IH]; intros [|y s'] E.
  - injection E as ->. split; reflexivity.
  - exfalso. apply (f_equal String.length) in E. cbn in E. rewrite app_len in E. cbn in E. lia.
  - exfalso. apply (f_equal String.length) in E. cbn in E. rewrite app_len in E. cbn in E. lia.
  - cbn in E. injection E as -> E. destruct (IH _ E) as [-> ->]. split; reflexivity.
Qed.
Lemma digit_inj d d' : (d < 10)%N -> (d' < 10)%N -> ascii_of_N (48 + d) = ascii_of_N (48 + d') -> d = d'.
Proof. intros A B E. apply (f_equal N_of_ascii) in E. rewrite !N_ascii_embedding in E by lia. lia. Qed.
Lemma reads_nonempty s n : reads_as s n -> s <> "".
Proof. intros R. destruct R as [|s n d R]; [discriminate|]. destruct s; discriminate. Qed.
Lemma reads_fun s n n' : reads_as s n -> reads_as s n' -> n = n'.
Proof.
  intros R. revert n'. induction R as [d D|s n d R IH Z D]; intros n' R'; inversion R' as [d' D' E|s' m d' R1 Z1 D1 E]; subst.
  - exact (eq_sym (digit_inj _ _ D' D E)).
  - exfalso. destruct s' as [|x s']; [exact (reads_nonempty _ _ R1 eq_refl)|]. apply (f_equal String.length) in E. cbn in E. rewrite app_len in E. cbn in E. lia.
  - exfalso. destruct s as [|x s]; [exact (reads_nonempty _ _ R eq_refl)|]. apply (f_equal String.length) in E. cbn in E. rewrite app_len in E. cbn in E. lia.
  - destruct (snoc_inv _ _ _ _ E) as [-> C]. rewrite (digit_inj _ _ D1 D C). rewrite (IH _ R1). reflexivity.
Qed.
Lemma decimal_of_reads f : forall n, (n < 2 ^ N.of_nat f)%N -> reads_as (decimal_of f n) n.
Proof.
  induction f as [|f IH]; intros n H.
  - change (2 ^ N.of_nat 0)%N with 1%N in H. assert (n = 0)%N as -> by lia. apply reads_one. reflexivity.
  - cbn [decimal_of]. destruct (N.ltb_spec n 10) as [L|L]; [apply reads_one; exact L|].
    assert (n = 10 * (n / 10) + n mod 10)%N as E by (apply N.div_mod; discriminate). rewrite E at 3. apply reads_more.
    + apply IH. rewrite Nat2N.inj_succ, N.pow_succ_r' in H. apply N.div_lt_upper_bound; [discriminate|]. lia.
    + intros Z. pose proof (N.mod_lt n 10 ltac:(discriminate)). lia.
    + apply N.mod_lt. discriminate.
Qed.
Lemma size_bound n : (n < 2 ^ N.of_nat (N.size_nat n))%N.
Proof.
  destruct n as [|p]; [reflexivity|].
  pose proof (N.size_gt (N.pos p)) as G. cbn [N.size N.size_nat] in *. assert (Q : N.of_nat (Pos.size_nat p) = N.pos (Pos.size p)).
  { clear G. induction p as [p IH|p IH|]; cbn [Pos.size_nat Pos.size]; [rewrite Nat2N.inj_succ, IH; reflexivity|rewrite Nat2N.inj_succ, IH; reflexivity|reflexivity]. }
  rewrite Q. exact G.
Qed.
Lemma decimal_reads n : reads_as (decimal n) n.
Proof. apply decimal_of_reads, size_bound. Qed.
Lemma decimal_inj n n' : decimal n = decimal n' -> n = n'.
Proof. intros E. apply (reads_fun (decimal n)); [apply decimal_reads|]. rewrite E. apply decimal_reads. Qed.

(* --- theorems -------------------------------------------------------------------------------------------------------- *)
(* Different errors have different texts. *)
Theorem C82_distinct_v1 : forall e e', text1 e = text1 e' -> e = e'.
Proof. intros [] []; cbn; intros E; first [reflexivity | discriminate E]. Qed.
Theorem C82_distinct_v2 : forall e e', text2 e = text2 e' -> e = e'.
Proof.
  intros [] []; cbn; intros E; try discriminate E; try reflexivity; f_equal.
  all: repeat (injection E as E); apply decimal_inj; first [exact E | exact (app_cancel_r _ _ _ E)].
Qed.
(* The text of an error with a type code shows the code as a decimal number, between words. *)
Theorem C82_code : forall e t, code_of e = Some t -> exists before number after, text2 e = before ++ number ++ after /\ reads_as number t /\
  (forall s n, text2 e = before ++ s ++ after -> reads_as s n -> n = t).
Proof.
  intros e t H. assert (G : exists b a, text2 e = b ++ decimal t ++ a).
  { destruct e; try discriminate H; injection H as ->.
    - exists "Invalid IE type ", " length". reflexivity.
    - exists "Incorrect IE type ", "". rewrite app_nil_s. reflexivity.
    - exists "Message invalid length ", "". rewrite app_nil_s. reflexivity.
    - exists "Mandatory IE of type ", " missing". reflexivity.
    - exists "Optional IE of type ", " incorrect". reflexivity. }
  destruct G as (b & a & E). exists b, (decimal t), a. split; [exact E|]. split; [apply decimal_reads|].
  intros s n E' R. rewrite E in E'. apply app_cancel_l, app_cancel_r in E'. apply (reads_fun s); [exact R|]. rewrite <- E'. apply decimal_reads.
Qed.

(* --- the hypotheses are met ------------------------------------------------------------------------------------------ *)
Example text_sample : text2 (V2Base.MessageMandatoryIEMissing 93) = "Mandatory IE of type 93 missing".
Proof. reflexivity. Qed.
Example reads_sample : reads_as "93" 93.
Proof. change "93" with ("9" ++ String (ascii_of_N (48 + 3)) ""). change 93%N with (10 * 9 + 3)%N. apply reads_more; [apply (reads_one 9); reflexivity|discriminate|reflexivity]. Qed.

Print Assumptions C82_distinct_v1.
Print Assumptions C82_distinct_v2.
Print Assumptions C82_code.
