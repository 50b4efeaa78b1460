(* PropsV2Hops.v - C90: GTPv2-C elements that are forwarded by one node after another. *)
From Verif Require Import Base BaseFacts V2Base V2BaseFacts V2Decoder V2ForwardSpec V2DecFacts V2DecMore V2DecLoop V2Msg V2MsgTables V2MsgSpec V2MsgLayouts V2MsgSpec V2Volume PropsV2Ie PropsV2Amplify.
From Verif Require PropsV2Forward PropsV2Mode.
Local Open Scope N_scope.

(* --- specification --------------------------------------------------------------------------------------------------- *)
(* A node reads the elements and sends what it has read; nothing if it cannot read them. *)
Definition hop (m : mode) (b : list N) : option (list N) := match decoder m b with Ok l => Some (encoder l) | _ => None end.
(* The nodes on the way, each with its kind of build. *)
Fixpoint hops (ms : list mode) (b : list N) : option (list N) :=
  match ms with [] => Some b | m :: r => match hop m b with Some b' => hops r b' | None => None end end.
(* ... and the same for messages of one kind *)
Definition relay (d : message_def) (m : mode) (b : list N) : option (list N) := match msg_unmarshal d m b with Ok x => Some (msg_marshal d x []) | _ => None end.
Fixpoint relays (d : message_def) (ms : list mode) (b : list N) : option (list N) :=
  match ms with [] => Some b | m :: r => match relay d m b with Some b' => relays d r b' | None => None end end.
(* A Local Distinguished Name with the octets [v] *)
Definition ldn (v : list N) : list N := [151; nlen v mod 65536 / 256; nlen v mod 256; 0] ++ v.

(* --- theorems -------------------------------------------------------------------------------------------------------- *)
(* Elements that can be sent on (C65) are no longer changed after the first node, however many follow. *)
Theorem C90_stable_partial : forall b l m ms, bytes b -> decoder Debug b = Ok l -> Forall sendable l -> hops (m :: ms) b = Some (encoder l).
Proof.
  intros b l m ms B D S. cbn [hops]. unfold hop. destruct (PropsV2Mode.C63_gtpv2_builds_agree m b) as (_ & [P|P] & _); [congruence|]. rewrite <- P, D.
  induction ms as [|n ms IH]; [reflexivity|]. cbn [hops]. unfold hop.
  rewrite (PropsV2Forward.C65_sequence_survives_partial b l n B D S). rewrite PropsV2Forward.encoder_again. exact IH.
Qed.
(* The same for messages. *)
Lemma marshal_again d x : msg_marshal d (PropsV2Forward.message_again x) [] = msg_marshal d x [].
Proof.
  unfold msg_marshal, PropsV2Forward.message_again. cbn [msg_header msg_fields app]. rewrite PropsV2Forward.tovec_again, PropsV2Forward.encoder_again.
  unfold set_msg_length, h2_marshal, nlen, enc16. cbn [h2_flags with_length h2_msgtype h2_length h2_teid h2_sqn h2_prio h2_piggyback app set_nth length]. reflexivity.
Qed.
Theorem C90_message_stable_partial : forall d L b x m ms, In (d, L) gtpv2_messages -> bytes b -> msg_unmarshal d Debug b = Ok x ->
  (h2_teid (msg_header x) = None <-> In (md_name d) without_teid) -> Forall (Forall sendable) (msg_fields x) -> counted x < 65536 ->
  relays d (m :: ms) b = Some (msg_marshal d x []).
Proof.
  intros d L b x m ms H B U T S C.
  assert (R1 : forall n, msg_unmarshal d n (msg_marshal d x []) = Ok (PropsV2Forward.message_again x)).
  { intros n. pose proof (PropsV2Forward.C65_message_survives_partial d L b x n [] H B U T S C) as R. rewrite app_nil_r in R. exact R. }
  cbn [relays]. unfold relay.
  destruct (proj2 (proj2 (PropsV2Mode.C63_gtpv2_builds_agree m b)) d) as [P|P]; [congruence|]. rewrite <- P, U. clear P.
  induction ms as [|n ms IH]; [reflexivity|]. cbn [relays]. unfold relay. rewrite R1, marshal_again. exact IH.
Qed.
(* One node sends at most a quadratic of what it received. *)
Theorem C90_bound : forall m b b', bytes b -> hop m b = Some b' -> (length b' <= 8 * (length b * length b) + 208 * length b)%nat.
Proof.
  intros m b b' B H. unfold hop in H. destruct (decoder m b) as [l| | |] eqn:D; try discriminate H. injection H as <-. exact (C80_size_bound m b l B D).
Qed.

(* In general they are changed at every node: a Local Distinguished Name outside ASCII is twice as long after each one. *)
Lemma high_step v : Forall (fun c => 128 <= c < 256) v -> Forall (fun c => 128 <= c < 256) (utf8 v) /\ length (utf8 v) = (2 * length v)%nat.
Proof.
  unfold utf8. induction 1 as [|c v C V [I L]]; [split; [constructor|reflexivity]|]. cbn [map concat].
  assert (U : utf8_char c = [192 + c / 64; 128 + c mod 64]).
  { unfold utf8_char. destruct (N.ltb_spec c 128); [lia|]. destruct (N.ltb_spec c 2048); [reflexivity|lia]. }
  rewrite U. split; [|rewrite app_length, L; cbn [length]; lia]. cbn [app].
  assert (c / 64 < 4) by (apply N.div_lt_upper_bound; lia). pose proof (N.mod_lt c 64 ltac:(discriminate)). repeat constructor; try lia. exact I.
Qed.
Lemma ldn_step m v : v <> [] -> (length v <= N.to_nat 65531)%nat -> hop m (ldn v) = Some (ldn (utf8 v)).
Proof.
  intros V L. assert (NL : nlen v <= 65531) by (unfold nlen; lia). assert (N0 : nlen v <> 0) by (unfold nlen; destruct v; [contradiction|cbn [length]; lia]).
  assert (H1 : ldn v = 151 :: nlen v / 256 :: nlen v mod 256 :: 0 :: v) by (unfold ldn; rewrite (N.mod_small (nlen v)) by lia; reflexivity).
  assert (D : decode_one (decoder m) m (ldn v) = Ok (IE_Ldn (mkIe 151 (nlen v) 0 v))).
  { rewrite disp_151 by (rewrite H1; reflexivity). unfold Ldn_unmarshal. rewrite need_ok by (rewrite H1; cbn [length]; lia). rewrite H1, hdr4_cons.
    replace (be16 (nlen v / 256) (nlen v mod 256)) with (nlen v) by (unfold be16; rewrite N.mul_comm; apply N.div_mod; discriminate).
    unfold checked, check_tliv_ie_buffer. rewrite (proj2 (N.eqb_neq _ _) N0). rewrite add16_small by lia. cbn [bind].
    rewrite (proj2 (Nat.leb_le _ _)) by (cbn [length]; unfold nlen; lia). cbn [bind]. unfold slice.
    rewrite (proj2 (Nat.leb_le 4 _)) by lia. rewrite (proj2 (Nat.leb_le _ _)) by (cbn [length]; unfold nlen; lia). cbn [andb bind].
    replace (4 + N.to_nat (nlen v) - 4)%nat with (length v) by (unfold nlen; lia). cbn [skipn]. rewrite firstn_all. reflexivity. }
  assert (Dl : decoder m (ldn v) = Ok [IE_Ldn (mkIe 151 (nlen v) 0 v)]).
  { apply (decoder_to m _ _ (4 + length v)%nat); [rewrite H1; discriminate|exact D| |lia|].
    - cbn [ie_len]. unfold Ldn_len, len_u16. cbn [ie_length]. rewrite add16_small by lia. cbn [bind]. f_equal. unfold nlen. lia.
    - rewrite H1. cbn [Nat.add skipn]. rewrite skipn_all. destruct m; reflexivity. }
  unfold hop. rewrite Dl. f_equal. unfold encoder. cbn [map concat]. rewrite app_nil_r. unfold ie_marshal, Ldn_marshal, marshal_ie, Ldn_value. cbn [ie_length ie_ins ie_v].
  rewrite tliv_eq. unfold ldn. cbn [app]. f_equal. f_equal; [|f_equal].
  - apply N.mod_small. apply N.div_lt_upper_bound; [discriminate|]. apply N.mod_lt. discriminate.
  - change 65536 with (256 * 256). rewrite N.mod_mul_r by discriminate. rewrite N.mul_comm, N.mod_add by discriminate. apply N.mod_mod. discriminate.
Qed.
Theorem C90_doubling_refuted : forall ms v, v <> [] -> Forall (fun c => 128 <= c < 256) v -> (2 ^ length ms * length v <= 2 * N.to_nat 65531)%nat ->
  exists w, hops ms (ldn v) = Some (ldn w) /\ length w = (2 ^ length ms * length v)%nat.
Proof.
  induction ms as [|m ms IH]; intros v V F L; [exists v; split; [reflexivity|cbn [length]; rewrite Nat.pow_0_r; lia]|].
  assert (P : (1 <= 2 ^ length ms)%nat) by (clear; induction ms; cbn [length Nat.pow]; lia).
  cbn [length] in *. rewrite Nat.pow_succ_r' in *. destruct (high_step v F) as [F2 L2].
  assert (Lv : (length v <= N.to_nat 65531)%nat) by nia.
  destruct (IH (utf8 v)) as (w & W & LW); [intros E; rewrite E in L2; destruct v; [contradiction|cbn [length] in L2; lia]|exact F2|rewrite L2; lia|].
  exists w. cbn [hops]. rewrite ldn_step by assumption. split; [exact W|]. rewrite LW, L2. lia.
Qed.
(* After sixteen nodes one octet has become 65536; the length field is then zero and the next node cannot read the element. *)
Theorem C90_lost_refuted : forall ms m c, 128 <= c < 256 -> length ms = 16%nat ->
  exists w, hops ms (ldn [c]) = Some (ldn w) /\ nlen w = 65536 /\ hops (ms ++ [m]) (ldn [c]) = None.
Proof.
  intros ms m c C L. destruct (C90_doubling_refuted ms [c]) as (w & W & LW); [discriminate|repeat constructor; apply C| |].
  { rewrite L. cbn [length]. rewrite Nat.mul_1_r. apply Nat2Z.inj_le. rewrite Nat2Z.inj_pow, Nat2Z.inj_mul, N_nat_Z. vm_compute. discriminate. }
  exists w. split; [exact W|]. assert (NW : nlen w = 65536).
  { unfold nlen. rewrite LW, L. cbn [length]. rewrite Nat.mul_1_r. rewrite Nat2N.inj_pow. reflexivity. }
  split; [exact NW|]. assert (A : forall xs b, hops (xs ++ [m]) b = match hops xs b with Some b' => hops [m] b' | None => None end).
  { induction xs as [|x xs IH]; intros b; [reflexivity|]. cbn [app hops]. destruct (hop x b); [apply IH|reflexivity]. }
  rewrite A, W. cbn [hops]. assert (H : hop m (ldn w) = None); [|rewrite H; reflexivity]. unfold hop, ldn. rewrite NW. change (65536 mod 65536 / 256) with 0. change (65536 mod 256) with 0.
  cbn [app]. rewrite decoder_eq. cbn [length ie_loop]. rewrite disp_151 by reflexivity. unfold Ldn_unmarshal. rewrite need_ok by (cbn [length]; lia). rewrite hdr4_cons. reflexivity.
Qed.

(* --- the hypotheses are met ------------------------------------------------------------------------------------------ *)
(* a recovery whose instance octet has spare bits set: they are gone after the first node *)
Example C90_stable_case : Forall sendable [IE_Recovery (mkIe 3 1 2 7)] /\ decoder Debug [3; 0; 1; 242; 7] = Ok [IE_Recovery (mkIe 3 1 2 7)] /\
  hops [Debug; Release; Debug] [3; 0; 1; 242; 7] = Some [3; 0; 1; 2; 7].
Proof. split; [constructor; [vm_compute; intuition (auto; discriminate)|constructor]|]. split; vm_compute; reflexivity. Qed.
(* a Delete Session Request with an octet after it (C65_message_case meets the hypotheses) *)
Example C90_message_case : relays md_deletesessionreq [Release; Debug; Release] PropsV2Forward.relay2 = Some (firstn 17 PropsV2Forward.relay2).
Proof. vm_compute. reflexivity. Qed.
Example C90_doubling_case : hops [Debug; Release] [151; 0; 1; 0; 200] = Some [151; 0; 4; 0; 195; 131; 194; 136].
Proof. vm_compute. reflexivity. Qed.

Print Assumptions C90_stable_partial.
Print Assumptions C90_message_stable_partial.
Print Assumptions C90_bound.
Print Assumptions C90_doubling_refuted.
Print Assumptions C90_lost_refuted.
