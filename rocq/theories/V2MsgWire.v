(* V2MsgWire.v - the messages on the wire: header, length field, slice of the IEs. *)
From Coq Require Import String.
From Verif Require Import Base BaseFacts V2BaseFacts.
From Verif Require Export V2MsgThms V2OwnFacts V2DecTame.
Local Open Scope N_scope.

Lemma h2_marshal_length h : nlen (h2_marshal h) = 4 + hdr_size h.
Proof. unfold h2_marshal, hdr_size, nlen. destruct (h2_teid h); reflexivity. Qed.

Lemma set_length_marshal h r : set_msg_length (h2_marshal h ++ r) = h2_marshal (with_length h ((hdr_size h + nlen r) mod 65536)) ++ r.
Proof.
  unfold set_msg_length. assert (E : nlen (h2_marshal h ++ r) - 4 = hdr_size h + nlen r).
  { unfold nlen. rewrite app_length, Nat2N.inj_add. change (N.of_nat (length (h2_marshal h))) with (nlen (h2_marshal h)). rewrite h2_marshal_length. lia. }
  rewrite E. unfold h2_marshal, with_length. cbn [h2_msgtype h2_piggyback h2_prio h2_length h2_teid h2_sqn].
  unfold h2_flags. cbn [h2_piggyback h2_prio h2_teid]. unfold enc16. destruct (h2_teid h); cbn [app set_nth]; reflexivity.
Qed.

Lemma h2_unmarshal_app b r h : h2_unmarshal b = Ok h -> h2_unmarshal (b ++ r) = Ok h.
Proof.
  unfold h2_unmarshal, MIN_HEADER_LENGTH, MAX_HEADER_LENGTH.
  destruct (Nat.leb_spec 8 (length b)) as [H|]; [|discriminate]. intros E. list_split b H.
  change ((x :: x0 :: x1 :: x2 :: x3 :: x4 :: x5 :: x6 :: b) ++ r) with (x :: x0 :: x1 :: x2 :: x3 :: x4 :: x5 :: x6 :: (b ++ r)).
  cbn [length Nat.leb] in *. rewrite !at_cons, !at_0 in *. cbn [bind] in *.
  revert E. destruct (negb _); [discriminate|]. destruct (_ =? 0); [intros E; exact E|].
  destruct b as [|x7 [|x8 [|x9 [|x10 b]]]]; try discriminate. intros E.
  change ((x7 :: x8 :: x9 :: x10 :: b) ++ r) with (x7 :: x8 :: x9 :: x10 :: (b ++ r)). cbn [length].
  rewrite !at_cons, !at_0 in *. exact E.
Qed.

Definition no_start_no_fields (p : message_def * layout) : bool :=
  match md_start (fst p) with None => is_nil (snd p) && is_nil (md_init (fst p)) && is_nil (md_final (fst p)) && is_nil (md_arms (fst p)) | Some s => (s =? 8)%nat || (s =? 12)%nat end.
Lemma starts_ok : forallb no_start_no_fields gtpv2_messages = true.
Proof. vm_compute. reflexivity. Qed.

Lemma unmarshal_carries d L m b h l : In (d, L) gtpv2_messages -> carries d m b h l ->
  msg_unmarshal d m b = let? x := fromvec d l in Ok (mkMsg h x).
Proof.
  intros H (Hh & Ht & Hs). unfold msg_unmarshal. rewrite Hh. cbn [bind]. rewrite Ht, N.eqb_refl. cbn [negb].
  destruct (md_start d) as [s|] eqn:Es.
  - destruct Hs as [[H1 H2] Hd]. unfold MANDATORY_HDR_LENGTH. rewrite (proj2 (Nat.leb_le _ _) H2), slice_ok by assumption. cbn [bind]. rewrite Hd. reflexivity.
  - subst l. pose proof starts_ok as S. rewrite forallb_forall in S. specialize (S _ H). unfold no_start_no_fields in S. cbn [fst snd] in S.
    rewrite Es, !andb_true_iff in S. destruct S as [[[_ S1] S2] _]. unfold fromvec. cbn [fold_left st_slots].
    destruct (md_init d), (md_final d); try discriminate. reflexivity.
Qed.

Lemma unmarshal_ok_carries d L m b y : In (d, L) gtpv2_messages -> msg_unmarshal d m b = Ok y ->
  exists l, carries d m b (msg_header y) l /\ fromvec d l = Ok (msg_fields y).
Proof.
  intros H U. unfold msg_unmarshal in U. destruct (h2_unmarshal b) as [h| | |] eqn:Hh; cbn [bind] in U; try discriminate.
  destruct (N.eqb_spec (h2_msgtype h) (md_type d)) as [Ht|]; cbn [negb] in U; [|discriminate].
  destruct (md_start d) as [s|] eqn:Es.
  - unfold MANDATORY_HDR_LENGTH in U. destruct (Nat.leb_spec (N.to_nat (h2_length h) + 4) (length b)) as [H2|]; [|discriminate].
    unfold slice in U. destruct (Nat.leb_spec s (N.to_nat (h2_length h) + 4)) as [H1|]; [|discriminate].
    rewrite (proj2 (Nat.leb_le _ _) H2) in U. cbn [andb bind] in U. destruct (decoder m _) as [l| | |] eqn:Hd; cbn [bind] in U; try discriminate.
    destruct (fromvec d l) as [x| | |] eqn:Hx; cbn [bind] in U; try discriminate. injection U as <-.
    exists l. unfold carries. rewrite Es. cbn [msg_header msg_fields]. repeat split; auto.
  - injection U as <-. exists []. unfold carries. rewrite Es. cbn [msg_header msg_fields]. split; auto.
    pose proof starts_ok as S. rewrite forallb_forall in S. specialize (S _ H). unfold no_start_no_fields in S. cbn [fst snd] in S.
    rewrite Es, !andb_true_iff in S. destruct S as [[[_ S1] S2] _]. unfold fromvec. cbn [fold_left st_slots].
    destruct (md_init d), (md_final d); try discriminate. reflexivity.
Qed.

(* ------------------------------------------------------------------------- *)
(* Encoding then decoding *)

Lemma nlen_app {A} (a b : list A) : nlen (a ++ b) = nlen a + nlen b.
Proof. unfold nlen. rewrite app_length. lia. Qed.

Lemma marshal_carries d m h l r s :
  md_start d = Some s -> N.of_nat s = 4 + hdr_size h ->
  wf_hdr2 h -> h2_msgtype h = md_type d -> h2_length h = hdr_size h + nlen (encoder l) ->
  Forall (fun e => ie_wf e /\ routed e) l ->
  carries d m ((h2_marshal h ++ encoder l) ++ r) h l.
Proof.
  intros Es Hs W T Hl F. unfold carries. rewrite <- app_assoc, h2_roundtrip by assumption. repeat split; auto.
  rewrite Es. pose proof (h2_marshal_length h) as M. unfold nlen in *.
  repeat split.
  - lia.
  - rewrite !app_length. lia.
  - rewrite skipn_app, skipn_all2 by lia. replace (s - length (h2_marshal h))%nat with 0%nat by lia. cbn [app skipn].
    rewrite firstn_app. replace (N.to_nat (h2_length h) + 4 - s)%nat with (length (encoder l)) by lia.
    rewrite firstn_all, Nat.sub_diag. cbn [firstn]. rewrite app_nil_r. apply decoder_list. exact F.
Qed.
