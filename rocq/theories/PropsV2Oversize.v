(* PropsV2Oversize.v - C91 for GTPv2-C: messages that the length field cannot describe. The vocabulary is that of C26 (V2MsgSpec.v). *)
From Coq Require Import String.
From Verif Require Import Base BaseFacts V2BaseFacts V2MsgWire PropsV2Ie PropsV2Msg.
Local Open Scope N_scope.
Notation length := List.length.

(* --- specification --------------------------------------------------------------------------------------------------- *)
(* the messages without a list of private extensions *)
Definition without_private_ext : list string := ["TraceSessionActivation"; "TraceSessionDeactivation"; "VersionNotSupported"]%string.
(* a message as the receiver has it: with the length field filled in *)
Definition arrived (x : message) : message := mkMsg (with_length (msg_header x) (counted x)) (msg_fields x).

(* --- theorems -------------------------------------------------------------------------------------------------------- *)
(* What is behind a multiple of 65536 octets is not received: if a message y starts with the elements of x and the others fill a multiple of 65536
   octets, it arrives as x. *)
Lemma marshal_cut d x y t : msg_header y = msg_header x -> encoder (tovec d (msg_fields y)) = encoder (tovec d (msg_fields x)) ++ t -> nlen t mod 65536 = 0 ->
  msg_marshal d y [] = msg_marshal d x [] ++ t.
Proof.
  intros Hh He Ht. unfold msg_marshal. cbn [app]. rewrite Hh, He, !set_length_marshal. rewrite <- app_assoc. f_equal. f_equal. f_equal.
  replace (hdr_size (msg_header x) + nlen (encoder (tovec d (msg_fields x)) ++ t)) with (hdr_size (msg_header x) + nlen (encoder (tovec d (msg_fields x))) + nlen t)
    by (unfold nlen; rewrite app_length; lia).
  rewrite N.add_mod, Ht, N.add_0_r, N.mod_mod by discriminate. reflexivity.
Qed.
Theorem C91_gtpv2_cut_refuted : forall d L x y t m rest, In (d, L) gtpv2_messages -> well_formed d L x ->
  (md_name d = "ModifyBearerCommand"%string -> (length (nth 1 (msg_fields x) []) <= 1)%nat) -> counted x < 65536 ->
  msg_header y = msg_header x -> encoder (tovec d (msg_fields y)) = encoder (tovec d (msg_fields x)) ++ t -> nlen t mod 65536 = 0 ->
  msg_unmarshal d m (msg_marshal d y [] ++ rest) = Ok (arrived x).
Proof.
  intros d L x y t m rest H W B C Hh He Ht. rewrite (marshal_cut d x y t Hh He Ht), <- app_assoc. exact (C26_round_trip_partial d L x m (t ++ rest) H W B C).
Qed.

(* There are such messages for nearly every kind and every x: two private extensions of 32768 octets are lost without a trace. *)
Definition big : ie := IE_PrivateExtension (mkIe 255 32764 0 (mkPrivateExt 10415 (repeat 7 (N.to_nat 32762)))).
Lemma big_wf : ie_wf big /\ routed big.
Proof.
  split; [|exact I]. unfold big. cbn [ie_wf]. unfold PrivateExtension_wf, wf_ie. cbn [ie_t ie_ins ie_length ie_v].
  assert (Z : nlen (PrivateExtension_value (mkPrivateExt 10415 (repeat 7 (N.to_nat 32762)))) = 32764).
  { unfold PrivateExtension_value, nlen. cbn [pe_id pe_value]. rewrite app_length, repeat_length. change (length (enc_be 2 10415)) with 2%nat. lia. }
  rewrite Z. split; [reflexivity|]. split; [reflexivity|]. split; [reflexivity|]. split; [discriminate|]. split; [reflexivity|].
  cbn [pe_value]. intros E. apply (f_equal (@length N)) in E. rewrite repeat_length in E. cbn [length] in E. lia.
Qed.
Lemma big_size : nlen (encoder [big; big]) = 65536.
Proof. vm_compute. reflexivity. Qed.

Definition more (i : nat) (x : list (list ie)) : list (list ie) := firstn i x ++ (nth i x [] ++ [big; big]) :: skipn (S i) x.
Lemma more_nth i x j : (i < length x)%nat -> nth j (more i x) [] = if (j =? i)%nat then nth i x [] ++ [big; big] else nth j x [].
Proof.
  intros L. unfold more. assert (F : length (firstn i x) = i) by (apply firstn_length_le; lia). destruct (Nat.eqb_spec j i) as [->|E].
  - rewrite app_nth2 by lia. rewrite F, Nat.sub_diag. reflexivity.
  - destruct (Nat.lt_trichotomy j i) as [G|[G|G]]; [|contradiction|].
    + rewrite app_nth1 by lia. rewrite <- (firstn_skipn i x) at 2. rewrite app_nth1 by lia. reflexivity.
    + rewrite app_nth2 by lia. rewrite F. destruct (j - i)%nat as [|k] eqn:K; [lia|]. cbn [nth]. rewrite <- (firstn_skipn (S i) x) at 2.
      rewrite app_nth2 by (rewrite firstn_length_le; lia). rewrite firstn_length_le by lia. f_equal. lia.
Qed.
Lemma more_split i (x : list (list ie)) : (i < length x)%nat -> x = firstn i x ++ nth i x [] :: skipn (S i) x.
Proof. revert x. induction i as [|i IH]; intros [|v x] L; cbn [length] in L; try lia; [reflexivity|]. cbn [firstn nth app]. cbn [skipn]. f_equal. apply IH. lia. Qed.
Lemma more_conforms L x i f : conforms L x -> nth_error L i = Some f -> (holds f (nth i x []) -> holds f (nth i x [] ++ [big; big])) -> conforms L (more i x).
Proof.
  unfold conforms, more. intros C. revert i. induction C as [|g v L x Hv C IH]; intros i Nf P; [destruct i; discriminate|].
  destruct i as [|i]; cbn [nth_error firstn nth skipn app] in *.
  - injection Nf as ->. constructor; [exact (P Hv)|exact C].
  - constructor; [exact Hv|]. exact (IH i Nf P).
Qed.
Lemma last_field : forallb (fun dl => existsb (String.eqb (md_name (fst dl))) without_private_ext ||
  match rev (md_tovec (fst dl)) with
  | i :: r => negb (existsb (Nat.eqb i) r) && match nth_error (snd dl) i with
      | Some f => match f_kind f, f_arity f, f_ins f with K_PrivateExtension, Many, [InsAny] => true | _, _, _ => false end | None => false end
  | [] => false end) gtpv2_messages = true.
Proof. vm_compute. reflexivity. Qed.
Theorem C91_gtpv2_refuted : forall d L x, In (d, L) gtpv2_messages -> ~ In (md_name d) without_private_ext -> well_formed d L x ->
  (md_name d = "ModifyBearerCommand"%string -> (length (nth 1 (msg_fields x) []) <= 1)%nat) -> counted x < 65536 ->
  exists y, well_formed d L y /\ counted y = counted x + 65536 /\ forall m rest, msg_unmarshal d m (msg_marshal d y [] ++ rest) = Ok (arrived x).
Proof.
  intros d L x H NI W B C. pose proof last_field as K. rewrite forallb_forall in K. specialize (K _ H). cbn [fst snd] in K.
  destruct (existsb _ without_private_ext) eqn:E.
  { exfalso. apply NI. apply existsb_exists in E. destruct E as (s & I & E). apply String.eqb_eq in E. rewrite E. exact I. }
  cbn [orb] in K. destruct (rev (md_tovec d)) as [|i r] eqn:R; [discriminate|]. apply andb_true_iff in K as [K1 K2]. apply negb_true_iff in K1.
  destruct (nth_error L i) as [f|] eqn:Nf; [|discriminate].
  assert (F : f_kind f = K_PrivateExtension /\ f_arity f = Many /\ f_ins f = [InsAny]).
  { destruct (f_kind f); try discriminate. destruct (f_arity f); try discriminate. destruct (f_ins f) as [|[]]; try discriminate. destruct l; [auto|discriminate]. }
  clear K2. destruct F as (F1 & F2 & F3). destruct W as (W1 & W2 & W3 & W4 & W5 & W6 & W7 & W8).
  assert (Li : (i < length L)%nat) by (apply nth_error_Some; rewrite Nf; discriminate).
  assert (Lx : length (msg_fields x) = length L) by (symmetry; eapply Forall2_len; exact W7).
  exists (mkMsg (msg_header x) (more i (msg_fields x))).
  assert (Tv : tovec d (more i (msg_fields x)) = tovec d (msg_fields x) ++ [big; big]).
  { unfold tovec. rewrite <- (rev_involutive (md_tovec d)), R. cbn [rev]. rewrite !map_app, !concat_app. cbn [map concat]. rewrite !app_nil_r, <- app_assoc. f_equal.
    - f_equal. apply map_ext_in. intros j I. rewrite more_nth by lia. apply in_rev in I. destruct (Nat.eqb_spec j i) as [->|_]; [|reflexivity].
      exfalso. assert (Q : existsb (Nat.eqb i) r = true) by (apply existsb_exists; exists i; split; [exact I|apply Nat.eqb_refl]). congruence.
    - rewrite more_nth by lia. rewrite Nat.eqb_refl. reflexivity. }
  assert (Cy : counted (mkMsg (msg_header x) (more i (msg_fields x))) = counted x + 65536).
  { unfold counted. cbn [msg_header msg_fields]. unfold more. rewrite (more_split i (msg_fields x)) at 4 by lia.
    change (concat (map ie_marshal ?l)) with (encoder l). rewrite <- big_size. unfold encoder, nlen. rewrite !concat_app. cbn [concat].
    rewrite !map_app, !concat_app, !app_length. lia. }
  split; [|split; [exact Cy|]].
  - unfold well_formed. cbn [msg_header msg_fields]. do 6 (split; [assumption|]). split.
    + apply (more_conforms L (msg_fields x) i f W7 Nf). intros (A & _ & Q). split; [|split].
      * apply Forall_app. split; [exact A|]. assert (Bg : belongs f big) by (split; [rewrite F1; reflexivity|exists InsAny; rewrite F3; split; [left; reflexivity|exact I]]).
        constructor; [exact Bg|constructor; [exact Bg|constructor]].
      * rewrite F2. exact I.
      * intros c Hc. apply Exists_app. left. exact (Q c Hc).
    + unfold more. rewrite (more_split i (msg_fields x)) in W8 by lia. apply Forall_app in W8 as [A1 A2]. inversion A2 as [|v l A3 A4]; subst. apply Forall_app. split; [exact A1|]. constructor; [|exact A4].
      apply Forall_app. split; [exact A3|]. constructor; [exact big_wf|constructor; [exact big_wf|constructor]].
  - intros m rest. apply (C91_gtpv2_cut_refuted d L x _ (encoder [big; big])); try assumption; cbn [msg_header msg_fields].
    + repeat (split; [assumption|]). assumption.
    + reflexivity.
    + rewrite Tv. unfold encoder. rewrite map_app, concat_app. reflexivity.
    + rewrite big_size. reflexivity.
Qed.

(* --- the hypotheses are met ------------------------------------------------------------------------------------------ *)
(* the Create Session Request of C26_witness, which has private extensions neither before nor after *)
Example C91_gtpv2_case : exists y, well_formed md_createsessionreq ly_createsessionreq y /\ counted y = counted w_csr + 65536 /\ y <> w_csr /\
  forall m rest, msg_unmarshal md_createsessionreq m (msg_marshal md_createsessionreq y [] ++ rest) = Ok (arrived w_csr).
Proof.
  destruct C26_witness as (I & W & C). destruct (C91_gtpv2_refuted _ _ w_csr I) as (y & Wy & Cy & R); [|exact W| |exact C|].
  - cbn. intuition discriminate.
  - discriminate.
  - exists y. split; [exact Wy|]. split; [exact Cy|]. split; [|exact R]. intros ->. lia.
Qed.

Print Assumptions C91_gtpv2_cut_refuted.
Print Assumptions C91_gtpv2_refuted.
