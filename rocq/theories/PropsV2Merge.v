(* PropsV2Merge.v - C77: messages and lists of elements. What [tovec], [fromvec], the iterator and [vec_by_ins] do with a
   message in memory, for all messages and all lists of elements. *)
From Coq Require Import String Permutation.
From Verif Require Import Base V2Base V2Common V2IeA V2IeB V2IeC V2IeD V2IeE V2IeF V2Decoder V2Kind V2Msg V2MsgTables V2MsgSpec V2MsgLayouts V2MsgFacts V2MsgThms V2Merge.
From Verif Require PropsV2Msg.
Local Open Scope N_scope.
Notation length := List.length.

(* --- specification ---------------------------------------------------------------------------------------------- *)
(* What a field holds after fromvec, if it held [old] before and [new] are the elements of the list that belong to it:
   a plain field is overwritten by the first of them, an Option is only filled if it is empty, a Vec is added to.
   (Thirteen fields take the last, C28, and the bearer contexts of Modify Bearer Command get one, C26.) *)
Definition after (f : field_spec) (old new : list ie) : list ie :=
  match f_arity f, f_keep f with
  | One, KeepFirst => match new with [] => old | e :: _ => [e] end
  | Opt, KeepFirst => match old with [] => match new with [] => [] | e :: _ => [e] end | _ => old end
  | Many, KeepFirst => old ++ match new with [] => [] | e :: _ => [e] end
  | _, KeepLast => match rev new with [] => old | e :: _ => [e] end
  | _, KeepAll => old ++ new
  end.

(* --- proofs ------------------------------------------------------------------------------------------------------ *)
Definition free_flag (d : message_def) (k : nat) : bool := match looked_at d with Some _ => negb (k =? 1)%nat | None => true end.
Definition arm_merges (d : message_def) (L : layout) (r : arm) : bool :=
  match nth_error L (r_slot r) with
  | None => false
  | Some f =>
      match f_arity f, f_keep f, r_act r with
      | One, KeepFirst, MandFirst k => free_flag d k
      | Opt, KeepFirst, OptFirst => true
      | Many, KeepFirst, PushMandFirst k => free_flag d k
      | _, KeepLast, (OptLast | MandLast _) => true
      | Many, KeepAll, (Push | PushMand _) => true
      | _, _, _ => false
      end
  end.
Lemma arms_merge : forallb (fun p => forallb (arm_merges (fst p) (snd p)) (md_arms (fst p))) gtpv2_messages = true.
Proof. vm_compute. reflexivity. Qed.

Section Merge.
Variables (d : message_def) (L : layout) (self : list (list ie)).
Hypothesis G : good d L = true.
Hypothesis MF : forall r, In r (md_arms d) -> arm_merges d L r = true.
Hypothesis HS0 : length self = length L.

Definition fseen (l : list ie) (k : nat) : Prop := In k (flags_before d self) \/ flag_seen d l k.
Lemma fseen_snoc l e k : fseen (l ++ [e]) k <-> fseen l k \/ exists r, In r (md_arms d) /\ arm_flag r = Some k /\ arm_matches r e = true.
Proof. unfold fseen. rewrite flag_snoc. tauto. Qed.
Definition minv (l : list ie) (st : dstate) : Prop :=
  length (st_slots st) = length L /\
  (forall i f, nth_error L i = Some f -> nth i (st_slots st) [] = after f (nth i self []) (filter (fits f) l)) /\
  (forall k, In k (st_flags st) <-> fseen l k).

Lemma minv_step l st e : minv l st -> minv (l ++ [e]) (step d st e).
Proof.
  intros (HL & HS & HF). unfold step. destruct (find (fun r => arm_matches r e) (md_arms d)) as [r|] eqn:Ef.
  2:{ assert (N : forall r, In r (md_arms d) -> arm_matches r e = false) by (intros r Hr; exact (find_none _ _ Ef _ Hr)).
      repeat split; auto.
      - intros i f Hf. rewrite filter_snoc. destruct (fits f e) eqn:E; [|rewrite app_nil_r; auto].
        destruct (fits_matches d L G _ _ _ Hf E) as [r [Hr [_ M]]]. rewrite N in M by assumption. discriminate.
      - intros H. apply fseen_snoc. left. apply HF. exact H.
      - intros H. apply HF. apply fseen_snoc in H. destruct H as [H|[r [Hr [_ M]]]]; auto. rewrite N in M by assumption. discriminate. }
  apply find_some in Ef. destruct Ef as [Hr Hm].
  destruct (arm_field d L G r Hr) as [f [Hf [Hk Hi]]]. pose proof (matches_fits d L G r f e Hr Hf Hm) as Hfit.
  assert (Hs : (r_slot r < length (st_slots st))%nat) by (rewrite HL; apply nth_error_Some; congruence).
  assert (Hother : forall j g, nth_error L j = Some g -> j <> r_slot r -> filter (fits g) (l ++ [e]) = filter (fits g) l).
  { intros j g Hg Hj. rewrite filter_snoc. destruct (fits g e) eqn:E; [|apply app_nil_r].
    exfalso. apply Hj. symmetry. eapply (fits_unique d L G); [exact Hf|exact Hg|exact Hfit|exact E]. }
  assert (Hsame : filter (fits f) (l ++ [e]) = filter (fits f) l ++ [e]) by (rewrite filter_snoc, Hfit; reflexivity).
  assert (Hfl : forall k, fseen (l ++ [e]) k <-> fseen l k \/ arm_flag r = Some k).
  { intros k. rewrite fseen_snoc. split; (intros [H|H]; [left; exact H|right]).
    - destruct H as [q [Hq [Fq Mq]]]. assert (r = q) by (eapply (arm_unique d L G); eassumption). subst; auto.
    - exists r; auto. }
  (* a new value in the slot of the arm *)
  assert (Hput : forall v fl, v = after f (nth (r_slot r) self []) (filter (fits f) l ++ [e]) ->
     (forall k, In k fl <-> fseen l k \/ arm_flag r = Some k) -> minv (l ++ [e]) (mkSt (update (st_slots st) (r_slot r) v) fl)).
  { intros v fl Hv Hfl'. split; [|split]; cbn [st_slots st_flags].
    - rewrite update_length; auto.
    - intros i g Hg. destruct (Nat.eq_dec i (r_slot r)) as [->|Hne].
      + rewrite Hf in Hg. injection Hg as <-. rewrite update_same, Hsame by assumption. exact Hv.
      + rewrite update_other, (Hother i g) by auto. apply HS; auto.
    - intros k. rewrite Hfl', Hfl. tauto. }
  (* no change *)
  assert (Hid : after f (nth (r_slot r) self []) (filter (fits f) l ++ [e]) =
                after f (nth (r_slot r) self []) (filter (fits f) l) ->
                (forall k, arm_flag r = Some k -> fseen l k) -> minv (l ++ [e]) st).
  { intros Hv Hk'. split; [|split]; auto.
    - intros i g Hg. destruct (Nat.eq_dec i (r_slot r)) as [->|Hne].
      + rewrite Hf in Hg. injection Hg as <-. rewrite Hsame, Hv. apply HS; auto.
      + rewrite (Hother i g) by auto. apply HS; auto.
    - intros k. rewrite Hfl, HF. split; [auto|intros [H|H]; auto]. }
  assert (Hold : nth (r_slot r) (st_slots st) [] = after f (nth (r_slot r) self []) (filter (fits f) l)) by (apply HS; auto).
  pose proof (g_fits d L G r Hr) as Hfits. unfold arm_fits in Hfits. rewrite Hf in Hfits. rewrite !andb_true_iff in Hfits. destruct Hfits as [_ Hact].
  pose proof (MF r Hr) as Hm2. unfold arm_merges in Hm2. rewrite Hf in Hm2.
  (* for the MandFirst forms the flag says whether the field was already filled *)
  assert (Hflag : forall k, arm_flag r = Some k -> ~ In k (flags_before d self) -> count (fun q => r_slot q =? r_slot r)%nat (md_arms d) = 1%nat ->
            count (flag_is k) (md_arms d) = 1%nat -> (fseen l k <-> filter (fits f) l <> [])).
  { intros k Hk1 K0 C1 C2. split.
    - intros [K|[q [x [Hq [Fq [Hx Mx]]]]]]; [contradiction|]. assert (q = r).
      { eapply count_one; try exact C2; auto; unfold flag_is; [rewrite Fq|rewrite Hk1]; apply Nat.eqb_refl. }
      subst q. intros Z. assert (In x (filter (fits f) l)) by (apply filter_In; split; auto; eapply (matches_fits d L G); eassumption).
      rewrite Z in H. contradiction.
    - intros H. destruct (filter (fits f) l) as [|x s] eqn:E; [congruence|].
      assert (Hx : In x (filter (fits f) l)) by (rewrite E; left; auto). apply filter_In in Hx. destruct Hx as [Hx Fx].
      destruct (fits_matches d L G _ _ _ Hf Fx) as [q [Hq [Sq Mq]]].
      assert (q = r). { eapply count_one; try exact C1; auto; cbn; [rewrite Sq|]; apply Nat.eqb_refl. }
      subst q. right. exists r, x. auto. }
  assert (Hfree : forall k, free_flag d k = true -> ~ In k (flags_before d self)).
  { intros k. unfold free_flag, flags_before. destruct (looked_at d) as [s0|]; [|intros _ []]. destruct (nth s0 self []); [intros _ []|].
    intros K [<-|[]]. discriminate K. }
  unfold act. unfold arm_flag in Hfl, Hput, Hid, Hflag. rewrite Hold. clear Hold. unfold after in *.
  set (s := filter (fits f) l) in *. set (o := nth (r_slot r) self []) in *. clearbody s o.
  assert (Hno : forall k, In k (st_flags st) <-> fseen l k \/ None = Some k) by (intros k; rewrite HF; split; [auto|intros [H|H]; [auto|discriminate]]).
  assert (Hcons : forall k j, In j (k :: st_flags st) <-> fseen l j \/ Some k = Some j).
  { intros k j. cbn [In]. rewrite HF. split; intros [H|H]; try tauto; first [right; congruence|left; congruence]. }
  destruct (r_act r) as [ | |k|k| |k|k]; destruct (f_keep f) eqn:Ek; try discriminate Hact; destruct (f_arity f) eqn:Ea; try discriminate Hm2.
  - (* OptFirst *) destruct o as [|y o]; [|apply Hid; [reflexivity|discriminate]].
    destruct s as [|x s]; cbn [head_of app] in *; [apply Hput; auto|apply Hid; [reflexivity|discriminate]].
  - (* OptLast, One *) apply Hput; [rewrite rev_app_distr; reflexivity|exact Hno].
  - (* OptLast, Opt *) apply Hput; [rewrite rev_app_distr; reflexivity|exact Hno].
  - apply Hput; [rewrite rev_app_distr; reflexivity|exact Hno].
  - (* MandFirst *) rewrite andb_true_iff, !Nat.eqb_eq in Hact. destruct Hact as [C1 C2]. specialize (Hflag k eq_refl (Hfree k Hm2) C1 C2).
    destruct (flag_set st k) eqn:E.
    + apply flag_set_in, HF in E. apply Hid; [|intros j [= <-]; exact E]. apply Hflag in E. destruct s; [congruence|reflexivity].
    + assert (Z : s = []).
      { destruct s eqn:El; auto. assert (X : fseen l k) by (apply Hflag; discriminate). apply HF, flag_set_in in X. congruence. }
      apply Hput; [rewrite Z; reflexivity|apply Hcons].
  - apply Hput; [rewrite rev_app_distr; reflexivity|apply Hcons].
  - apply Hput; [rewrite rev_app_distr; reflexivity|apply Hcons].
  - apply Hput; [rewrite rev_app_distr; reflexivity|apply Hcons].
  - (* Push *) apply Hput; [rewrite app_assoc; reflexivity|exact Hno].
  - (* PushMand *) apply Hput; [rewrite app_assoc; reflexivity|apply Hcons].
  - (* PushMandFirst *) rewrite !andb_true_iff, !Nat.eqb_eq in Hact. destruct Hact as [[C1 C2] _]. specialize (Hflag k eq_refl (Hfree k Hm2) C1 C2).
    destruct (flag_set st k) eqn:E.
    + apply flag_set_in, HF in E. apply Hid; [|intros j [= <-]; exact E]. apply Hflag in E. destruct s; [congruence|reflexivity].
    + assert (Z : s = []).
      { destruct s eqn:El; auto. assert (X : fseen l k) by (apply Hflag; discriminate). apply HF, flag_set_in in X. congruence. }
      apply Hput; [rewrite Z, app_nil_r; reflexivity|apply Hcons].
Qed.

Lemma after_nil f o : after f o [] = o.
Proof. unfold after. destruct (f_arity f), (f_keep f), o; cbn [rev]; rewrite ?app_nil_r; reflexivity. Qed.
Lemma minv_run l : minv l (fold_left (step d) l (mkSt self (flags_before d self))).
Proof.
  induction l as [|e l IH] using rev_ind.
  - split; [|split]; cbn [fold_left st_slots st_flags filter].
    + exact HS0.
    + intros. rewrite after_nil. reflexivity.
    + intros k. unfold fseen. split; [auto|intros [K|[r [e [_ [_ [[] _]]]]]]; exact K].
  - rewrite fold_left_app. cbn [fold_left]. apply minv_step. exact IH.
Qed.
End Merge.

Definition missing_report (r : res (list (list ie))) : option N := match r with Err (MessageMandatoryIEMissing c) => Some c | _ => None end.
Lemma decide_ext f g l : (forall k, f k = g k) -> decide f l = decide g l.
Proof.
  intros H. induction l as [|[c o] l IH]; [reflexivity|]. cbn [decide].
  assert (E : forallb (fun p => Bool.eqb (f (fst p)) (snd p)) c = forallb (fun p => Bool.eqb (g (fst p)) (snd p)) c).
  { clear - H. induction c as [|p c IH]; [reflexivity|]. cbn [forallb]. rewrite H, IH. reflexivity. }
  rewrite E, IH. reflexivity.
Qed.
Lemma merges d L r : In (d, L) gtpv2_messages -> In r (md_arms d) -> arm_merges d L r = true.
Proof.
  intros H Hr. pose proof arms_merge as A. rewrite forallb_forall in A. specialize (A _ H). cbn [fst snd] in A.
  rewrite forallb_forall in A. apply A. exact Hr.
Qed.
(* the flag that stands for is_empty() *)
Definition look_ok (p : message_def * layout) : bool :=
  match looked_at (fst p) with
  | None => true
  | Some s => existsb (fun r => (r_slot r =? s)%nat && match r_act r with PushMand 1 => true | _ => false end) (md_arms (fst p)) &&
      (count (fun q => r_slot q =? s)%nat (md_arms (fst p)) =? 1)%nat && (s <? length (snd p))%nat
  end.
Lemma looks : forallb look_ok gtpv2_messages = true.
Proof. vm_compute. reflexivity. Qed.

Definition held (d : message_def) (self : list (list ie)) : list ie := match looked_at d with Some s => nth s self [] | None => [] end.
Lemma held_flag d L self : In (d, L) gtpv2_messages -> conforms L self -> forall l k,
  fseen d self l k <-> flag_seen d (held d self ++ l) k.
Proof.
  intros H C l k. pose proof looks as K. rewrite forallb_forall in K. specialize (K _ H). unfold look_ok in K. cbn [fst snd] in K.
  unfold fseen, held, flags_before. destruct (looked_at d) as [s|]; [|cbn [app In]; tauto].
  rewrite !andb_true_iff, Nat.ltb_lt in K. destruct K as [[K K2] K3]. apply existsb_exists in K. destruct K as (r & Hr & K).
  rewrite andb_true_iff, Nat.eqb_eq in K. destruct K as [<- KA]. apply Nat.eqb_eq in K2.
  assert (FA : arm_flag r = Some 1%nat) by (unfold arm_flag; destruct (r_act r) as [ | |k1|k1| |k1|k1]; try discriminate KA; destruct k1 as [|[|k1]]; try discriminate KA; reflexivity).
  destruct (nth_error L (r_slot r)) as [f|] eqn:Hf; [|apply nth_error_None in Hf; lia].
  assert (B : Forall (fun e => arm_matches r e = true) (nth (r_slot r) self [])).
  { assert (W : holds f (nth (r_slot r) self [])).
    { clear - C Hf. revert Hf. generalize (r_slot r). induction C as [|g v L' self' P C IH]; intros [|n] Hf; cbn in Hf |- *; try discriminate.
      - injection Hf as ->. exact P.
      - apply IH. exact Hf. }
    destruct W as [W _]. eapply Forall_impl; [|exact W]. intros e Be. apply fits_belongs in Be.
    destruct (fits_matches d L (mk_good d L H) _ _ _ Hf Be) as (q & Hq & Sq & Mq).
    assert (Q : q = r) by (eapply count_one; try exact K2; auto; cbn; [rewrite Sq|]; apply Nat.eqb_refl). rewrite <- Q. exact Mq. }
  split.
  - intros [J|(q & e & Hq & Fq & He & Mq)].
    + destruct (nth (r_slot r) self []) as [|e t] eqn:E; [destruct J|]. destruct J as [<-|[]]. exists r, e.
      split; [exact Hr|]. split; [exact FA|]. split; [left; reflexivity|]. inversion B; assumption.
    + exists q, e. split; [exact Hq|]. split; [exact Fq|]. split; [apply in_or_app; right; exact He|exact Mq].
  - intros (q & e & Hq & Fq & He & Mq). apply in_app_or in He. destruct He as [He|He].
    + left. rewrite Forall_forall in B. pose proof (arm_unique d L (mk_good d L H) q r e Hq Hr Mq (B e He)) as ->. rewrite FA in Fq. injection Fq as <-.
      destruct (nth (r_slot r) self []); [destruct He|]. left. reflexivity.
    + right. exists q, e. auto.
Qed.

(* --- C77 ----------------------------------------------------------------------------------------------------------- *)
(* The fields of a message after [fromvec], whatever it held before and whatever the result is. *)
Theorem C77_fields : forall d L self l i f new, In (d, L) gtpv2_messages -> length self = length L -> nth_error L i = Some f ->
  sublist (belongs f) l new ->
  nth_error (fst (fromvec_on d self l)) i = Some (after f (nth i self []) new).
Proof.
  intros d L self l i f new H HL Hf Hn.
  rewrite (sublist_unique _ _ _ _ Hn (sublist_filter (belongs f) (fits f) l (fits_belongs f))).
  destruct (minv_run d L self (mk_good d L H) (fun r => merges d L r H) HL l) as (A & B & _). unfold fromvec_on. cbn [fst].
  rewrite <- (B i f Hf). apply nth_error_nth'. rewrite A. apply nth_error_Some. congruence.
Qed.
(* The result depends on the list alone, as if the message had been new; in Update Bearer Request and Delete Bearer Failure
   Indication as if the list began with the bearer contexts that the message holds already. *)
Theorem C77_result : forall d L self l, In (d, L) gtpv2_messages -> conforms L self ->
  snd (fromvec_on d self l) = missing_report (fromvec d (held d self ++ l)).
Proof.
  intros d L self l H C. unfold fromvec_on, fromvec. cbn [snd].
  assert (HL : length self = length L) by (clear - C; induction C; cbn [length]; congruence).
  destruct (minv_run d L self (mk_good d L H) (fun r => merges d L r H) HL l) as (_ & _ & F).
  assert (E : decide (flag_set (fold_left (step d) l (mkSt self (flags_before d self)))) (md_final d) =
              decide (flag_set (fold_left (step d) (held d self ++ l) (mkSt (md_init d) []))) (md_final d)).
  { apply decide_ext. intros k. apply eq_true_iff_eq. rewrite flag_set_in, F, (held_flag d L self H C).
    rewrite <- (run_flags d L (mk_good d L H)). reflexivity. }
  rewrite E. cbv zeta. unfold missing_report. destruct (decide (flag_set (fold_left (step d) (held d self ++ l) _)) (md_final d)); reflexivity.
Qed.
(* Taking a message apart and filling a new one gives the same fields, whatever the elements hold: there is no condition on
   their contents here, as there is in C26. The exception is that of C26. *)
Theorem C77_apart_and_together_partial : forall d L x, In (d, L) gtpv2_messages -> conforms L x ->
  (md_name d = "ModifyBearerCommand"%string -> (length (nth 1 x []) <= 1)%nat) ->
  Permutation (tovec d x) (concat x) /\ fromvec d (tovec d x) = Ok x.
Proof.
  intros d L x H C B. assert (HL : length x = length L) by (clear - C; induction C; cbn [length]; congruence).
  split; [exact (PropsV2Msg.tovec_perm d L x H HL)|]. exact (fromvec_tovec d L x H C (PropsV2Msg.whole d L x H C B)).
Qed.
(* Filling a message with its own elements once more doubles every field that is a Vec. *)
Theorem C77_doubled : forall d L x i f, In (d, L) gtpv2_messages -> conforms L x -> nth_error L i = Some f -> f_keep f = KeepAll ->
  nth_error (fst (fromvec_on d x (tovec d x))) i = Some (nth i x [] ++ nth i x []).
Proof.
  intros d L x i f H C Hf K. assert (HL : length x = length L) by (clear - C; induction C; cbn [length]; congruence).
  pose proof (sublist_filter (belongs f) (fits f) (tovec d x) (fits_belongs f)) as S.
  rewrite (C77_fields d L x _ i f _ H HL Hf S). unfold after. rewrite K.
  assert (E : filter (fits f) (tovec d x) = nth i x []).
  { exact (filter_tovec d L x i f (mk_good d L H) (mk_tovec d L H) C Hf). }
  rewrite E. destruct (f_arity f); reflexivity.
Qed.

(* Iteration. The elements of a message are visited once each, and then the iteration ends - that is what one expects of
   an iterator. Of a message with elements, every call of next() returns the same element, and the iteration never ends. *)
Theorem C77_iteration_refuted : forall d L x, In (d, L) gtpv2_messages -> length x = length L -> concat x <> [] ->
  exists e, In e (concat x) /\ forall n, calls d n x = repeat (Some e) n.
Proof.
  intros d L x H HL N. pose proof (PropsV2Msg.tovec_perm d L x H HL) as P. destruct (rev (tovec d x)) as [|e r] eqn:E.
  - exfalso. apply N. assert (Z : tovec d x = []) by (rewrite <- (rev_involutive (tovec d x)), E; reflexivity). rewrite Z in P. apply Permutation_nil in P. exact P.
  - exists e. split.
    + eapply Permutation_in; [exact P|]. apply in_rev. rewrite E. left. reflexivity.
    + induction n as [|n IH]; [reflexivity|]. cbn [calls repeat]. unfold next at 1. rewrite E, IH. reflexivity.
Qed.
(* It ends only where there is nothing to visit. *)
Theorem C77_iteration_empty : forall d x n, concat x = [] -> calls d n x = repeat None n.
Proof.
  intros d x n N. assert (Z : tovec d x = []).
  { unfold tovec. assert (Q : forall i, nth i x [] = []).
    { clear - N. induction x as [|v x IH]; intros [|i]; [reflexivity..| |]; cbn [concat] in N; apply app_eq_nil in N; destruct N as [N1 N2]; [exact N1|apply IH; exact N2]. }
    induction (md_tovec d) as [|i t IH]; [reflexivity|]. cbn [map concat]. rewrite Q. exact IH. }
  induction n as [|n IH]; [reflexivity|]. cbn [calls repeat]. unfold next at 1. rewrite Z, IH. reflexivity.
Qed.
(* [vec_by_ins] returns the elements with the instance asked for, all of them, in their order. *)
Theorem C77_by_instance : forall i l, sublist (fun e => ie_instance e = i) l (vec_by_ins i l).
Proof. intros i l. apply sublist_filter. intros e. apply N.eqb_eq. Qed.

(* --- witnesses ------------------------------------------------------------------------------------------------------- *)
Definition two_elements : list (list ie) := PropsV2Msg.fill ly_updatebearerreq [("bearer_ctxs", [PropsV2Msg.w_bearer]); ("apnambr", [PropsV2Msg.w_ambr])]%string.
Example C77_witness : conforms ly_updatebearerreq two_elements /\ In (md_updatebearerreq, ly_updatebearerreq) gtpv2_messages /\
  concat two_elements = [PropsV2Msg.w_bearer; PropsV2Msg.w_ambr] /\ tovec md_updatebearerreq two_elements = [PropsV2Msg.w_bearer; PropsV2Msg.w_ambr].
Proof. split; [apply conformsb_ok; vm_compute; reflexivity|]. split; [PropsV2Msg.listed|split; reflexivity]. Qed.
(* A new message with these two elements, and a caller who asks for them: the same element again and again. *)
Example C77_witness_calls : calls md_updatebearerreq 3 two_elements = [Some PropsV2Msg.w_ambr; Some PropsV2Msg.w_ambr; Some PropsV2Msg.w_ambr].
Proof. reflexivity. Qed.
(* fromvec without the mandatory AMBR: an error, and yet the bearer context has been added; and the bearer context that is
   there already counts as received, the AMBR that is there does not. *)
Example C77_witness_error :
  (let '(x, r) := fromvec_on md_updatebearerreq two_elements [PropsV2Msg.w_bearer] in (nth 0 x [], r)) = ([PropsV2Msg.w_bearer; PropsV2Msg.w_bearer], Some 72) /\
  snd (fromvec_on md_updatebearerreq two_elements [PropsV2Msg.w_ambr]) = None /\
  missing_report (fromvec md_updatebearerreq [PropsV2Msg.w_ambr]) = Some 93.
Proof. split; [|split]; vm_compute; reflexivity. Qed.
Print Assumptions C77_fields.
Print Assumptions C77_result.
Print Assumptions C77_apart_and_together_partial.
Print Assumptions C77_doubled.
Print Assumptions C77_iteration_refuted.
Print Assumptions C77_iteration_empty.
Print Assumptions C77_by_instance.
