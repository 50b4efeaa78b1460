(* PropsV2Multi.v - several GTPv2-C messages in one packet (piggybacking, TS 29.274 5.5.1): C67. *)
From Coq Require Import String.
From Verif Require Import Base BaseFacts V2BaseFacts V2MsgWire PropsV2Msg.
Local Open Scope N_scope.
Notation length := List.length.

(* [cut b l]: the octets [b] are the messages [l], one after the other. A message ends where its own length field says. *)
Inductive cut : list N -> list (list N) -> Prop :=
| cut_end : cut [] []
| cut_next p b l : (4 <= length p)%nat -> N.of_nat (length p) = declared_length p + 4 -> cut b l -> cut (p ++ b) (p :: l).

(* a message that can be sent, with its kind: C26's conditions *)
Definition sent := (message_def * message)%type.
Definition sendable (s : sent) : Prop := exists L, In (fst s, L) gtpv2_messages /\ well_formed (fst s) L (snd s) /\
  (md_name (fst s) = "ModifyBearerCommand"%string -> (length (nth 1 (msg_fields (snd s)) []) <= 1)%nat) /\ counted (snd s) < 65536.
(* its octets, encoded on its own *)
Definition octets (s : sent) : list N := msg_marshal (fst s) (snd s) [].
(* what the receiver is to have: the message with the length field filled in *)
Definition delivered (x : message) : message := mkMsg (with_length (msg_header x) (counted x)) (msg_fields x).

Lemma declared_app p b : (4 <= length p)%nat -> declared_length (p ++ b) = declared_length p.
Proof. intros H. unfold declared_length. rewrite !app_nth1 by lia. reflexivity. Qed.

Lemma sendable_length s : sendable s -> (4 <= length (octets s))%nat /\ N.of_nat (length (octets s)) = declared_length (octets s) + 4.
Proof.
  intros (L & Hin & Hw & Hb & Hc). destruct s as [d x]. cbn [fst snd] in *. unfold octets. cbn [fst snd].
  pose proof (C26_round_trip_partial d L x Release [] Hin Hw Hb Hc) as R. rewrite app_nil_r in R.
  unfold msg_unmarshal in R. apply bind_ok in R as (h & Hh & R).
  assert (Eh : h = with_length (msg_header x) (counted x)).
  { destruct (negb _); [discriminate|]. destruct (md_start d); [|apply Ok_inj in R; injection R as -> _; reflexivity].
    destruct (Nat.leb _ _); [|discriminate]. apply bind_ok in R as (? & _ & R). apply bind_ok in R as (? & _ & R).
    apply bind_ok in R as (? & _ & R). apply Ok_inj in R. injection R as -> _. reflexivity. }
  destruct (h2_fixed _ h Hh) as [_ E]. rewrite Eh in E. cbn [with_length h2_length] in E.
  pose proof (C32_length_field_wraps d x) as W. rewrite <- E in W.
  assert (L8 : (8 <= length (msg_marshal d x []))%nat).
  { unfold h2_unmarshal, MIN_HEADER_LENGTH in Hh. destruct (Nat.leb_spec 8 (length (msg_marshal d x []))); [assumption|discriminate]. }
  split; [lia|]. rewrite <- E.
  destruct (C15_append_partial d x []) as [_ _].
  unfold msg_marshal in *. cbn [app] in *. rewrite set_length_marshal in *.
  unfold counted in *. change (concat (map ie_marshal (concat (msg_fields x)))) with (encoder (concat (msg_fields x))) in *.
  pose proof (h2_marshal_length (with_length (msg_header x) ((hdr_size (msg_header x) + nlen (encoder (tovec d (msg_fields x)))) mod 65536))) as M.
  assert (En : nlen (encoder (tovec d (msg_fields x))) = nlen (encoder (concat (msg_fields x)))).
  { apply encoder_length_perm. destruct Hw as (_ & _ & _ & _ & _ & _ & C & _). eapply tovec_perm; eauto. symmetry; eapply Forall2_len; exact C. }
  rewrite app_length, Nat2N.inj_add. unfold nlen in M at 1. rewrite M. fold (nlen (encoder (tovec d (msg_fields x)))). rewrite En.
  unfold with_length, hdr_size. cbn [h2_teid]. lia.
Qed.

(* Messages that are encoded one by one and sent in one packet are found by their length fields. *)
Theorem C67_messages_found : forall l, Forall sendable l -> cut (concat (map octets l)) (map octets l).
Proof.
  induction 1 as [|s l Hs _ IH]; [constructor|]. cbn [map concat]. destruct (sendable_length s Hs). constructor; assumption.
Qed.
Print Assumptions C67_messages_found.

(* In only one way, whatever the octets. *)
Theorem C67_one_way : forall b l l', cut b l -> cut b l' -> l = l'.
Proof.
  intros b l l' H. revert l'. induction H as [|p b l Hl Hd _ IH]; intros l' H'.
  - inversion H' as [E|p b' l0 Hl Hd _ E]; [reflexivity|]. destruct p; [cbn in Hl; lia|discriminate].
  - inversion H' as [E|p' b' l0 Hl' Hd' Hc E].
    + destruct p; [cbn in Hl; lia|discriminate].
    + assert (D : declared_length p' = declared_length p) by (rewrite <- (declared_app p b Hl), <- E; symmetry; apply declared_app, Hl').
      assert (N : length p' = length p) by lia.
      assert (P : p' = p) by (apply (f_equal (firstn (length p))) in E; rewrite <- N in E at 1; rewrite !firstn_app, N, Nat.sub_diag, !firstn_O, !app_nil_r in E;
        rewrite <- N in E at 1; rewrite !firstn_all in E; exact E).
      subst p'. apply app_inv_head in E. subst b'. f_equal. apply IH. exact Hc.
Qed.
Print Assumptions C67_one_way.

(* Each message is read from where the ones before it end, as itself. *)
Theorem C67_each_is_read : forall m l1 d x l2, Forall sendable (l1 ++ (d, x) :: l2) ->
  msg_unmarshal d m (skipn (length (concat (map octets l1))) (concat (map octets (l1 ++ (d, x) :: l2)))) = Ok (delivered x).
Proof.
  intros m l1 d x l2 H. rewrite map_app, concat_app, skipn_app, skipn_all, Nat.sub_diag. cbn [app skipn map concat].
  apply Forall_app in H as [_ H]. apply Forall_inv in H as (L & Hin & Hw & Hb & Hc). cbn [fst snd] in *.
  apply (C26_round_trip_partial d L x m _ Hin Hw Hb Hc).
Qed.
Print Assumptions C67_each_is_read.

(* The next message is where the length field of this one says: four octets and the declared length further. *)
Theorem C67_next_offset : forall m s t r, sendable s -> sendable t ->
  msg_unmarshal (fst t) m (skipn (N.to_nat (declared_length (octets s ++ octets t ++ r)) + 4) (octets s ++ octets t ++ r)) = Ok (delivered (snd t)).
Proof.
  intros m s [d x] r Hs (L & Hin & Hw & Hb & Hc). cbn [fst snd] in *. destruct (sendable_length s Hs) as [H4 E].
  rewrite declared_app by exact H4. replace (N.to_nat (declared_length (octets s)) + 4)%nat with (length (octets s)) by lia.
  rewrite skipn_app, skipn_all, Nat.sub_diag. cbn [app skipn]. apply (C26_round_trip_partial d L x m r Hin Hw Hb Hc).
Qed.
Print Assumptions C67_next_offset.

(* Full statement: the same if the second message is encoded into the buffer that holds the first, as the signature of
   marshal invites. False for all messages: the length field of the first then covers both, and that of the second is what
   the caller had in the header. *)
Theorem C67_same_buffer_refuted : forall s t, (8 <= length (octets s))%nat ->
  let b := msg_marshal (fst t) (snd t) (octets s) in
  length b = (length (octets s) + length (octets t))%nat /\
  declared_length b = (N.of_nat (length b) - 4) mod 65536 /\
  declared_length (skipn (length (octets s)) b) = h2_length (msg_header (snd t)) mod 65536.
Proof.
  intros s [d x] H. cbn [fst snd]. set (p := octets s) in *. cbn zeta.
  destruct (C15_append_partial d x p) as (E & _). split; [exact E|].
  destruct p as [|a [|b [|c [|e q]]]]; try (cbn in H; lia). rewrite C15_append_refuted. cbn zeta.
  set (n := N.of_nat (length q) + 4 + hdr_size (msg_header x) + nlen (encoder (tovec d (msg_fields x)))).
  split.
  - assert (En : N.of_nat (length ((a :: b :: n / 256 mod 256 :: n mod 256 :: q) ++ h2_marshal (msg_header x) ++ encoder (tovec d (msg_fields x)))) - 4 = n).
    { rewrite !app_length, !Nat2N.inj_add. cbn [length]. pose proof (h2_marshal_length (msg_header x)) as M. unfold nlen in M, n. unfold nlen. lia. }
    rewrite En. clearbody n. unfold declared_length. cbn [app nth]. lia.
  - rewrite skipn_app. replace (skipn (length (a :: b :: c :: e :: q)) (a :: b :: n / 256 mod 256 :: n mod 256 :: q)) with (@nil N)
      by (symmetry; apply skipn_all2; cbn [length]; lia).
    replace (length (a :: b :: c :: e :: q) - length (a :: b :: (n / 256 mod 256)%N :: (n mod 256)%N :: q))%nat with 0%nat by (cbn [length]; lia).
    cbn [app skipn]. unfold declared_length, h2_marshal. cbn [app nth enc16]. lia.
Qed.
Print Assumptions C67_same_buffer_refuted.

(* two messages in one packet: a create session request and a modify bearer request *)
Definition w_mbr : message := mkMsg (mkHdr2 34 false None 0 (Some 9) 43) (fill ly_modifybearerreq []).
Definition w_two : list sent := [(md_createsessionreq, w_csr); (md_modifybearerreq, w_mbr)].
Example C67_case : Forall sendable w_two /\ length (concat (map octets w_two)) = (length (octets (md_createsessionreq, w_csr)) + 12)%nat.
Proof.
  split; [|vm_compute; reflexivity]. constructor; [|constructor; [|constructor]].
  - exists ly_createsessionreq. split; [listed|]. split; [wf_msg|]. split; [discriminate|vm_compute; reflexivity].
  - exists ly_modifybearerreq. split; [listed|]. split; [wf_msg|]. split; [discriminate|vm_compute; reflexivity].
Qed.
