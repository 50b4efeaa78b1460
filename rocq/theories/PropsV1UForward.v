(* PropsV1UForward.v - GTP-U messages received and sent on (C94). A receiver that decodes a packet and
   encodes what it got: exactly which messages the next receiver reads as the same values. The
   definitions in the conditions ([natural], [length_right], [private_right], [short_last]) are the
   first ones of V1UForward.v. *)
From Verif Require Import BaseFacts OctetsFacts V1USpec V1UFacts V1UWireSpec V1UWireFacts V1UReadFacts V1UForward PropsV1UWire PropsV1CRead.
From Coq Require Import Sorted.
Local Open Scope N_scope.

Lemma mod_u16 a : a mod 65536 < 65536.
Proof. apply N.mod_lt. discriminate. Qed.
(* a private extension as received and as sent: the length is what the encoder counts *)
Definition pe_sent (x : PrivateExtension) : list N :=
  255 :: oct2 ((2 + nlen (pe_value x)) mod 65536) ++ oct2 (pe_id x) ++ pe_value x.
Definition got_pe (x : PrivateExtension) : Prop :=
  pe_t x = 255 /\ 1 <= pe_length x <= 65532 /\ u16 (pe_id x) /\ bytes (pe_value x) /\ pe_length x + 3 <= 5 + nlen (pe_value x).
Lemma private_got s x : private_at s x -> bytes s -> got_pe x /\ nlen s = 5 + nlen (pe_value x).
Proof.
  intros (t & l1 & l2 & i1 & i2 & v & -> & Hl & Hs & ->) B. repeat (apply bytes_cons in B as [? B]). unfold byte, got_pe, u16, nlen in *. cbn [length pe_t pe_length pe_id pe_value] in *.
  repeat split; try assumption; lia.
Qed.
Lemma pe_sent_ok x : got_pe x -> Pe_marshal x = pe_sent x.
Proof.
  intros (Ht & Hl & Hi & Hb & _). unfold Pe_marshal, pe_sent. rewrite Ht. unfold enc16 at 1. cbn [app]. rewrite set_tlv_cons.
  rewrite (enc16_oct _ Hi), (enc16_oct _ (mod_u16 _)). do 2 f_equal. f_equal. unfold oct2, nlen. cbn [app length]. f_equal. lia.
Qed.
Lemma pe_sent_bytes x : got_pe x -> bytes (pe_sent x).
Proof.
  intros (_ & _ & Hi & Hb & _). unfold pe_sent. apply bytes_cons. split; [reflexivity|]. rewrite !bytes_app.
  split; [apply oct2_bytes, mod_u16|]. split; [apply oct2_bytes, Hi|exact Hb].
Qed.
Lemma pe_sent_len x : nlen (pe_sent x) = 5 + nlen (pe_value x).
Proof. unfold pe_sent, oct2, nlen. cbn [app length]. lia. Qed.
Lemma pe_sent_at x : got_pe x -> private_right (Some x) -> private_at (pe_sent x) x.
Proof.
  intros (Ht & Hl & Hi & Hb & Hs) Hr. cbn [private_right] in Hr. unfold u16 in Hi. pose proof (pe_sent_len x) as HL.
  exists 255, (pe_length x / 256), (pe_length x mod 256), (pe_id x / 256), (pe_id x mod 256), (pe_value x).
  split; [unfold pe_sent; rewrite <- Hr; reflexivity|]. rewrite HL.
  split; [lia|]. split; [lia|]. destruct x as [t l i v]. cbn [pe_t pe_length pe_id pe_value] in *. subst t. f_equal; lia.
Qed.
Lemma pe_sent_at_inv x : private_at (pe_sent x) x -> private_right (Some x).
Proof.
  intros (t & l1 & l2 & i1 & i2 & v & E & _ & _ & Ex). unfold pe_sent, oct2 in E. cbn [app] in E. pose proof (mod_u16 (2 + nlen (pe_value x))).
  cbn [private_right]. set (k := (2 + nlen (pe_value x)) mod 65536) in *.
  assert (E1 : l1 = k / 256) by congruence. assert (E2 : l2 = k mod 256) by congruence. rewrite Ex. cbn [pe_length]. lia.
Qed.
Definition got_opt_pe (o : option PrivateExtension) : Prop := match o with Some x => got_pe x | None => True end.
Definition opt_sent (o : option PrivateExtension) : list N := match o with Some x => pe_sent x | None => [] end.
Lemma opt_sent_ok o : got_opt_pe o -> opt_bytes Pe_marshal o = opt_sent o /\ bytes (opt_sent o).
Proof. destruct o as [x|]; cbn; [intros G; split; [apply pe_sent_ok|apply pe_sent_bytes]; exact G|split; [reflexivity|constructor]]. Qed.
Lemma private_opt_got s o : private_opt s o -> bytes s -> got_opt_pe o.
Proof. destruct o as [x|]; cbn [private_opt got_opt_pe]; [intros H B; apply (private_got _ _ H B)|trivial]. Qed.
Lemma opt_sent_len x : length (opt_sent x) = length (opt_wire pe_wire x).
Proof. destruct x; [|reflexivity]. unfold opt_sent, opt_wire, pe_sent, pe_wire, oct2. cbn [app length]. reflexivity. Qed.

(* A message sent on: the header with the number of octets in it, then the body. *)
Lemma sent_on h body : got_header h -> bytes body ->
  let k := (nlen (hdr_wire h 0 ++ body) - 8) mod 65536 in
  set_length (hdr_marshal h ++ body) = hdr_wire h k ++ body /\ bytes (hdr_wire h k ++ body) /\ k < nlen (hdr_wire h k ++ body) - 7 /\ k < 65536.
Proof.
  intros G B k. split; [apply got_framed, G|]. split; [|split].
  - apply bytes_app. split; [apply hdr_wire_bytes; [exact G|apply mod_u16]|exact B].
  - assert (EL : length (hdr_wire h k ++ body) = length (hdr_wire h 0 ++ body)) by (rewrite !app_length, (hdr_wire_length h k); reflexivity).
    unfold nlen at 1. rewrite EL. unfold k, nlen. rewrite !app_length.
    assert (8 <= length (hdr_wire h 0))%nat by (pose proof (wire_size h 0) as W; unfold nlen in W; destruct (extension_headers h), (sequence_number h), (npdu_number h); lia).
    match goal with |- ?a mod ?c < _ => pose proof (N.mod_le a c ltac:(discriminate)) end. lia.
  - apply mod_u16.
Qed.

(* ----- C94: which GTP-U messages can be sent on ---------------------------------------------------- *)
(* A G-PDU: if and only if the length octets of its extension headers with numbers are the natural
   ones. Trailing octets, spare octets and flags do not matter. *)
Theorem C94_gpdu : forall b x, bytes b -> Gpdu_unmarshal Debug b = Ok x ->
  (Gpdu_unmarshal Debug (Gpdu_marshal x []) = Ok x <-> Forall natural (exts (gp_header x))).
Proof.
  intros b x Hb H. apply C56_gpdu in H as (h & data & rest & Hh & Ht & Hl & Hlen & ->); [|exact Hb]. cbn [gp_header].
  destruct (header_got _ _ _ Hh Hb) as (G & Br & Hsz). apply bytes_app in Br as [Bd _].
  unfold Gpdu_marshal. cbn [app gp_header gp_tpdu]. destruct (sent_on h data G Bd) as (-> & Bb & _ & Hk).
  assert (Hhl : h_length h + 8 = hsize h + nlen data) by (unfold nlen in *; rewrite app_length in Hsz; lia).
  split.
  - intros H. apply C56_gpdu in H as (h' & data' & rest' & Hh' & _ & _ & Hlen' & E); [|exact Bb]. injection E as <- <-.
    destruct (wire_cases _ _ _ _ G Hk Hh') as (Ek & [[Hn _]|[[_ Er]|Hlt]]); [exact Hn| |].
    + exfalso. destruct (header_got _ _ _ Hh' Bb) as (_ & _ & Hsz'). rewrite <- Ek in *.
      apply (f_equal (@length N)) in Er. cbn [length] in Er. unfold nlen in *. rewrite !app_length in *. rewrite hdr_wire_length in *.
      assert (N.of_nat (length (hdr_wire h 0)) = hsize h + 4) by lia.
      assert (E2 : (N.of_nat (length (hdr_wire h 0) + length data) - 8) = h_length h + 4) by lia.
      rewrite E2 in Ek. rewrite N.mod_small in Ek by lia. lia.
    + exfalso. rewrite app_length in Hlt. lia.
  - intros Hn. apply C56_gpdu; [exact Bb|]. exists h, data, [].
    assert (Ek : h_length h = (nlen (hdr_wire h 0 ++ data) - 8) mod 65536).
    { pose proof (natural_size h 0 G Hn) as W. unfold nlen in *. rewrite app_length. rewrite N.mod_small by lia. lia. }
    rewrite <- Ek. rewrite app_nil_r. split; [apply wire_natural; assumption|]. split; [exact Ht|]. split; [exact Hl|]. split; [|reflexivity].
    pose proof (natural_size h (h_length h) G Hn) as W. unfold nlen in *. rewrite app_length. cbn [length]. lia.
Qed.
Print Assumptions C94_gpdu.

(* An Echo Request or End Marker: the length field has to count the octets that are sent, the length
   of a private extension the octets of its value, and the extension headers have natural lengths.
   One other case is read back, by chance: without a private extension, a last extension header
   with a long PDCP number in four octets. *)
Theorem C94_echo_request_end_marker : forall mt b x, bytes b -> Simple_unmarshal mt Debug b = Ok x ->
  (Simple_unmarshal mt Debug (Simple_marshal x []) = Ok x <->
   length_right (sm_header x) (opt_wire pe_wire (sm_private_ext x)) /\ private_right (sm_private_ext x) /\
   (Forall natural (exts (sm_header x)) \/ (short_last (sm_header x) /\ sm_private_ext x = None))).
Proof.
  intros mt b x Hb H. apply C56_echo_request_end_marker in H as (h & r & p & Hh & Ht & Hp & ->); [|exact Hb]. cbn [sm_header sm_private_ext].
  destruct (header_got _ _ _ Hh Hb) as (G & Br & _).
  assert (Gp : got_opt_pe p) by (destruct (h_length h <? nlen b); [exact (private_opt_got _ _ Hp Br)|subst p; exact I]).
  unfold Simple_marshal. cbn [app sm_header sm_private_ext]. destruct (opt_sent_ok p Gp) as [-> Bp].
  destruct (sent_on h (opt_sent p) G Bp) as (-> & Bb & Hlt & Hk). set (k := (nlen (hdr_wire h 0 ++ opt_sent p) - 8) mod 65536) in *.
  assert (Er : length_right h (opt_wire pe_wire p) <-> h_length h = k).
  { unfold length_right, k, nlen. rewrite !app_length, opt_sent_len. reflexivity. }
  rewrite Er. clear Er. split.
  - intros H. apply C56_echo_request_end_marker in H as (h' & r' & p' & Hh' & _ & Hp' & E); [|exact Bb]. injection E as <- <-.
    destruct (wire_cases _ _ _ _ G Hk Hh') as (Ek & Hc). split; [exact Ek|]. rewrite Ek in Hp'. destruct (N.ltb_spec k (nlen (hdr_wire h k ++ opt_sent p))) as [_|]; [|lia].
    destruct Hc as [[Hn ->]|[[Hn ->]|Hc]].
    + split; [|auto]. destruct p as [y|]; [|exact I]. apply pe_sent_at_inv, Hp'.
    + destruct p as [y|]; [|cbn; auto]. destruct Hp' as (? & l1 & l2 & ? & ? & ? & E & Hl & _). injection E as _ <- <- _. lia.
    + exfalso. destruct p as [y|]; [|cbn in Hc; lia]. apply header_got in Hh' as (_ & Br' & _); [|exact Bb].
      apply (private_got _ _ Hp') in Br' as [_ Hz]. cbn [opt_sent] in Hc. pose proof (pe_sent_len y) as Hz'. unfold nlen in *. lia.
  - intros (Ek & Hpr & Hc). apply C56_echo_request_end_marker; [exact Bb|]. rewrite <- Ek. rewrite <- Ek in Hlt.
    destruct Hc as [Hn|[Hn ->]].
    + exists h, (opt_sent p), p. split; [apply wire_natural; assumption|]. split; [exact Ht|]. split; [|reflexivity].
      destruct (N.ltb_spec (h_length h) (nlen (hdr_wire h (h_length h) ++ opt_sent p))) as [_|]; [|lia].
      destruct p as [y|]; [apply pe_sent_at; assumption|exact I].
    + exists h, [0; 0; 0; 0], None. split; [apply (wire_short_last h [] G Hn)|]. split; [exact Ht|]. split; [|reflexivity].
      destruct (N.ltb_spec (h_length h) (nlen (hdr_wire h (h_length h) ++ opt_sent None))) as [_|]; [|lia]. left. reflexivity.
Qed.
Print Assumptions C94_echo_request_end_marker.

Theorem C94_echo_response : forall b x, bytes b -> EchoResponse_unmarshal Debug b = Ok x ->
  (EchoResponse_unmarshal Debug (EchoResponse_marshal x []) = Ok x <->
   length_right (er_header x) (recovery_wire (er_recovery x) ++ opt_wire pe_wire (er_private_ext x)) /\
   private_right (er_private_ext x) /\ Forall natural (exts (er_header x))).
Proof.
  intros b x Hb H. apply C56_echo_response in H as (h & v & r & p & Hh & Ht & _ & Hp & ->); [|exact Hb]. cbn [er_header er_recovery er_private_ext].
  destruct (header_got _ _ _ Hh Hb) as (G & Br & _). apply bytes_cons in Br as [_ Br]. apply bytes_cons in Br as [Bv Br].
  pose proof (private_opt_got _ _ Hp Br) as Gp.
  unfold EchoResponse_marshal. cbn [app er_header er_recovery er_private_ext Rec_marshal rec_value]. unfold RECOVERY. destruct (opt_sent_ok p Gp) as [-> Bp].
  assert (Bp' : bytes (14 :: v :: opt_sent p)) by (repeat (apply bytes_cons; split; [first [exact Bv|reflexivity]|]); exact Bp).
  destruct (sent_on h (14 :: v :: opt_sent p) G Bp') as (-> & Bb & Hlt & Hk). set (k := (nlen (hdr_wire h 0 ++ 14 :: v :: opt_sent p) - 8) mod 65536) in *.
  assert (Er : length_right h (recovery_wire (mkRec 14 v) ++ opt_wire pe_wire p) <-> h_length h = k).
  { unfold length_right, k, nlen, recovery_wire. cbn [app rec_value]. rewrite !app_length. cbn [length]. rewrite opt_sent_len. reflexivity. }
  rewrite Er. clear Er. split.
  - intros H. apply C56_echo_response in H as (h' & v' & r' & p' & Hh' & _ & _ & Hp' & E); [|exact Bb]. injection E as <- <- <-.
    destruct (wire_cases _ _ _ _ G Hk Hh') as (Ek & Hc). split; [exact Ek|].
    destruct Hc as [[Hn Er]|[[Hn Er]|Hc]]; [injection Er as ->|discriminate|].
    + split; [|exact Hn]. destruct p as [y|]; [|exact I]. apply pe_sent_at_inv, Hp'.
    + exfalso. destruct p as [y|]; [|cbn in Hc; lia]. apply header_got in Hh' as (_ & Br' & _); [|exact Bb].
      apply bytes_cons in Br' as [_ Br']. apply bytes_cons in Br' as [_ Br'].
      apply (private_got _ _ Hp') in Br' as [_ Hz]. cbn [opt_sent length] in Hc. pose proof (pe_sent_len y) as Hz'. unfold nlen in *. lia.
  - intros (Ek & Hpr & Hn). apply C56_echo_response; [exact Bb|]. rewrite <- Ek. rewrite <- Ek in Hlt.
    exists h, v, (opt_sent p), p. split; [apply wire_natural; assumption|]. split; [exact Ht|]. split; [|split; [|reflexivity]].
    + assert (4 + h_length h < nlen (hdr_wire h (h_length h) ++ 14 :: v :: opt_sent p)) by lia. lia.
    + destruct p as [y|]; [apply pe_sent_at; assumption|exact I].
Qed.
Print Assumptions C94_echo_response.

(* The list a notification carries runs to the end of the packet: its length has to say so. *)
Theorem C94_supported_extension_headers : forall b x, bytes b -> SupExtNotif_unmarshal Debug b = Ok x ->
  (SupExtNotif_unmarshal Debug (SupExtNotif_marshal x []) = Ok x <->
   length_right (sn_header x) (ehtl_wire (sn_list x)) /\ ehtl_length (sn_list x) = nlen (ehtl_list (sn_list x)) mod 256 /\
   Forall natural (exts (sn_header x))).
Proof.
  intros b x Hb H. apply C56_supported_extension_headers in H as (h & n & l & Hh & Ht & Hl & _ & Hn & Hnl & ->); [|exact Hb]. cbn [sn_header sn_list ehtl_list ehtl_length].
  destruct (header_got _ _ _ Hh Hb) as (G & Br & _). apply bytes_cons in Br as [_ Br]. apply bytes_cons in Br as [Bn Br].
  unfold SupExtNotif_marshal. cbn [app sn_header sn_list].
  assert (Es : Ehtl_marshal (mkEhtl 141 n l) = 141 :: (nlen l mod 256) :: l).
  { unfold Ehtl_marshal. cbn [ehtl_t ehtl_length ehtl_list app set_nth]. do 2 f_equal. f_equal. unfold nlen. cbn [length]. lia. }
  rewrite Es. clear Es.
  assert (Bp : bytes (141 :: (nlen l mod 256) :: l)).
  { repeat (apply bytes_cons; split; [first [reflexivity|apply N.mod_lt; discriminate]|]). exact Br. }
  destruct (sent_on h _ G Bp) as (-> & Bb & Hlt & Hk). set (k := (nlen (hdr_wire h 0 ++ 141 :: (nlen l mod 256) :: l) - 8) mod 65536) in *.
  assert (Er : length_right h (ehtl_wire (mkEhtl 141 n l)) <-> h_length h = k).
  { unfold length_right, k, nlen, ehtl_wire. cbn [app ehtl_list]. rewrite !app_length. reflexivity. }
  rewrite Er. clear Er. split.
  - intros H. apply C56_supported_extension_headers in H as (h' & n' & l' & Hh' & _ & _ & _ & _ & _ & E); [|exact Bb]. injection E as <- <- <-.
    destruct (wire_cases _ _ _ _ G Hk Hh') as (Ek & Hc). split; [exact Ek|].
    destruct Hc as [[Hna Er]|[[Hna Er]|Hc]]; [injection Er as ->; auto|discriminate|]. exfalso. cbn [length] in Hc. lia.
  - intros (Ek & Hpr & Hna). apply C56_supported_extension_headers; [exact Bb|]. rewrite <- Ek, <- Hpr in *.
    exists h, n, l. split; [apply wire_natural; assumption|]. split; [exact Ht|]. split; [exact Hl|]. split; [lia|]. repeat split; try lia.
Qed.
Print Assumptions C94_supported_extension_headers.

(* An Error Indication: of several TEIDs, addresses and private extensions the first is sent on. *)
Lemma carried_parts r l : carries r l -> bytes r ->
  Forall wf_teid (teids l) /\ Forall wf_gsn (gsns l) /\ (forall g a b c d, In g (gsns l) -> gsn_ip g = V4 a b c d -> bytes [a; b; c; d]) /\
  (forall g o, In g (gsns l) -> gsn_ip g = V6 o -> bytes o) /\ Forall got_pe (pes l).
Proof.
  induction 1 as [|a b c d r l H IH|a b c d r l H IH|o r l Ho H IH|s x l Hp Hh H IH]; intros B.
  - repeat split; try constructor; intros; contradiction.
  - repeat (apply bytes_cons in B as [? B]). destruct (IH B) as (I1 & I2 & I3 & I4 & I5). cbn [teids gsns pes flat_map app]. fold (teids l) (gsns l) (pes l).
    split; [constructor; [|exact I1]|auto]. unfold wf_teid, u32, byte in *. cbn. lia.
  - repeat (apply bytes_cons in B as [? B]). destruct (IH B) as (I1 & I2 & I3 & I4 & I5). cbn [teids gsns pes flat_map app]. fold (teids l) (gsns l) (pes l).
    split; [exact I1|]. split; [constructor; [split; reflexivity|exact I2]|]. split; [|split; [|exact I5]].
    + intros g a' b' c' d' [<-|Hi] E; [|eauto]. cbn in E. injection E as <- <- <- <-. repeat constructor; assumption.
    + intros g o [<-|Hi] E; [discriminate|eauto].
  - repeat (apply bytes_cons in B as [? B]). apply bytes_app in B as [Bo B]. destruct (IH B) as (I1 & I2 & I3 & I4 & I5). cbn [teids gsns pes flat_map app]. fold (teids l) (gsns l) (pes l).
    split; [exact I1|]. split; [constructor; [|exact I2]|]. { split; [reflexivity|]. cbn. auto. } split; [|split; [|exact I5]].
    + intros g a' b' c' d' [<-|Hi] E; [discriminate|eauto].
    + intros g o' [<-|Hi] E; [|eauto]. cbn in E. injection E as <-. exact Bo.
  - assert (B' : bytes (skipn (N.to_nat (pe_length x) + 3) s)).
    { rewrite <- (firstn_skipn (N.to_nat (pe_length x) + 3) s) in B. apply bytes_app in B. apply B. }
    destruct (IH B') as (I1 & I2 & I3 & I4 & I5). cbn [teids gsns pes flat_map app]. fold (teids l) (gsns l) (pes l).
    split; [exact I1|]. split; [exact I2|]. split; [exact I3|]. split; [exact I4|]. constructor; [|exact I5]. apply (private_got _ _ Hp B).
Qed.
(* after a private extension only private extensions follow *)
Lemma private_last x l : StronglySorted N.le (map ucode (UP x :: l)) -> teids l = [] /\ gsns l = [].
Proof.
  intros H. cbn [map] in H. apply StronglySorted_inv in H as [_ H]. induction l as [|e l IH]; [auto|]. inversion H as [|? ? H1 H2]. destruct (IH H2) as [A B].
  destruct e; cbn [ucode] in H1; try lia. cbn [teids gsns flat_map app]. auto.
Qed.
(* the octets the first of each kind takes *)
Definition span_of (t : option Teid) (g : option GsnAddress) (p : option PrivateExtension) : N :=
  (match t with Some _ => 5 | None => 0 end) + (match g with Some x => nlen (gsn_wire x) | None => 0 end) +
  (match p with Some x => 5 + nlen (pe_value x) | None => 0 end).
Lemma carried_span r l : carries r l -> StronglySorted N.le (map ucode l) ->
  span_of (hd_error (teids l)) (hd_error (gsns l)) (hd_error (pes l)) <= nlen r.
Proof.
  unfold span_of. induction 1 as [|a b c d r l H IH|a b c d r l H IH|o r l Ho H IH|s x l Hp Hh H IH]; intros Hs.
  - cbn. lia.
  - cbn [map] in Hs. apply StronglySorted_inv in Hs as [Hs _]. specialize (IH Hs). cbn [teids gsns pes flat_map app hd_error]. fold (teids l) (gsns l) (pes l).
    unfold nlen in *. cbn [length]. destruct (hd_error (teids l)); lia.
  - cbn [map] in Hs. apply StronglySorted_inv in Hs as [Hs _]. specialize (IH Hs). cbn [teids gsns pes flat_map app hd_error]. fold (teids l) (gsns l) (pes l).
    unfold nlen in *. cbn [length gsn_wire gsn_ip]. destruct (hd_error (gsns l)); lia.
  - cbn [map] in Hs. apply StronglySorted_inv in Hs as [Hs _]. specialize (IH Hs). cbn [teids gsns pes flat_map app hd_error]. fold (teids l) (gsns l) (pes l).
    unfold nlen in *. cbn [gsn_wire gsn_ip app length]. rewrite app_length. destruct (hd_error (gsns l)); lia.
  - destruct (private_last _ _ Hs) as [E1 E2]. cbn [teids gsns pes flat_map app hd_error]. fold (teids l) (gsns l) (pes l). rewrite E1, E2. cbn [hd_error].
    destruct Hp as (t & l1 & l2 & i1 & i2 & v & -> & _ & _ & ->). unfold nlen. cbn [length pe_value]. lia.
Qed.
(* where the first private extension is, nothing but private extensions follows *)
Lemma carried_private r l x : carries r l -> StronglySorted N.le (map ucode l) -> hd_error (pes l) = Some x ->
  exists s l', private_at s x /\ hd 0 s = 255 /\ carries (skipn (N.to_nat (pe_length x) + 3) s) l' /\
    pes l = x :: pes l' /\ StronglySorted N.le (map ucode (UP x :: l')) /\ exists a, r = a ++ s.
Proof.
  induction 1 as [|a b c d r l H IH|a b c d r l H IH|o r l Ho H IH|s y l Hp Hh H IH]; intros Hs Hx.
  - discriminate.
  - cbn [map] in Hs. apply StronglySorted_inv in Hs as [Hs _]. destruct (IH Hs Hx) as (s & l' & K1 & K2 & K3 & K4 & K5 & a0 & ->). exists s, l'. repeat (split; [assumption|]). eexists (_ :: _ :: _ :: _ :: _ :: a0). reflexivity.
  - cbn [map] in Hs. apply StronglySorted_inv in Hs as [Hs _]. destruct (IH Hs Hx) as (s & l' & K1 & K2 & K3 & K4 & K5 & a0 & ->). exists s, l'. repeat (split; [assumption|]). eexists (_ :: _ :: _ :: _ :: _ :: _ :: _ :: a0). reflexivity.
  - cbn [map] in Hs. apply StronglySorted_inv in Hs as [Hs _]. destruct (IH Hs Hx) as (s & l' & K1 & K2 & K3 & K4 & K5 & a0 & ->). exists s, l'. repeat (split; [assumption|]). eexists (_ :: _ :: _ :: o ++ a0). cbn [app]. rewrite <- app_assoc. reflexivity.
  - cbn [pes flat_map app hd_error] in Hx. injection Hx as ->. exists s, l. repeat (split; [assumption|]). split; [reflexivity|]. split; [assumption|]. exists []. reflexivity.
Qed.
Lemma app_inj_tail_length {A} (a b c d : list A) : a ++ b = c ++ d -> length b = length d -> b = d.
Proof.
  intros E L. assert (La : length a = length c) by (apply (f_equal (@length A)) in E; rewrite !app_length in E; lia).
  apply (f_equal (skipn (length a))) in E. rewrite skipn_app, skipn_all, Nat.sub_diag in E. rewrite La, skipn_app, skipn_all, Nat.sub_diag in E. exact E.
Qed.
Lemma private_same s x : private_at s x -> hd 0 s = 255 -> bytes s -> private_right (Some x) -> s = pe_sent x.
Proof.
  intros (t & l1 & l2 & i1 & i2 & v & -> & Hl & _ & ->) Hh B Hr. cbn [hd] in Hh. subst t. cbn [private_right pe_length pe_value] in Hr.
  repeat (apply bytes_cons in B as [? B]). unfold byte in *. unfold pe_sent, oct2. cbn [pe_value pe_id app]. rewrite <- Hr.
  repeat f_equal; lia.
Qed.
Lemma gsn_wire_bytes g : wf_gsn g -> (forall a b c d, gsn_ip g = V4 a b c d -> bytes [a; b; c; d]) -> (forall o, gsn_ip g = V6 o -> bytes o) -> bytes (gsn_wire g).
Proof.
  intros _ H4 H6. unfold gsn_wire. destruct (gsn_ip g) as [a b c d|o].
  - repeat (apply bytes_cons; split; [reflexivity|]). apply (H4 _ _ _ _ eq_refl).
  - repeat (apply bytes_cons; split; [reflexivity|]). apply (H6 _ eq_refl).
Qed.
Lemma carries_sent t g s l : wf_teid t -> wf_gsn g -> carries s l -> carries (teid_wire t ++ gsn_wire g ++ s) (UT t :: UG g :: l).
Proof.
  intros [Ht Hu] [Hg Hi] Hs. destruct t as [tt tv], g as [gt gl gi]. cbn in *. subst tt gt. unfold u32 in Hu. unfold teid_wire, oct4, gsn_wire. cbn [te_teid gsn_ip app].
  replace tv with (16777216 * (tv / 16777216) + 65536 * ((tv / 65536) mod 256) + 256 * ((tv / 256) mod 256) + tv mod 256) at 5 by lia.
  constructor. destruct gi as [a b c d|o].
  - subst gl. constructor. exact Hs.
  - destruct Hi as [-> Ho]. cbn [app]. constructor; assumption.
Qed.
Theorem C94_error_indication : forall b x, bytes b -> ErrorIndication_unmarshal Debug b = Ok x ->
  (ErrorIndication_unmarshal Debug (ErrorIndication_marshal x []) = Ok x <->
   length_right (ei_header x) (teid_wire (ei_teid x) ++ gsn_wire (ei_peer x) ++ opt_wire pe_wire (ei_private x)) /\
   private_right (ei_private x) /\ Forall natural (exts (ei_header x))).
Proof.
  intros b x Hb H. apply C56_error_indication in H as (h & r & l & t & g & Hh & Ht & Hl & _ & Hc & Hs & (_ & _ & Kp) & Et & Eg & ->); [|exact Hb].
  cbn [ei_header ei_teid ei_peer ei_private]. destruct (header_got _ _ _ Hh Hb) as (G & Br & _).
  destruct (carried_parts _ _ Hc Br) as (P1 & P2 & P3 & P4 & P5).
  assert (Wt : wf_teid t). { destruct (teids l) as [|t' ts]; [discriminate|]. injection Et as ->. inversion P1. assumption. }
  assert (Ig : In g (gsns l)) by (destruct (gsns l) as [|g' gs]; [discriminate|]; injection Eg as ->; left; reflexivity).
  assert (Wg : wf_gsn g) by exact (proj1 (Forall_forall _ _) P2 g Ig).
  set (p := hd_error (pes l)) in *.
  assert (Gp : got_opt_pe p). { unfold p. destruct (pes l) as [|y ys]; [exact I|]. inversion P5. assumption. }
  unfold ErrorIndication_marshal. cbn [app ei_header ei_teid ei_peer ei_private]. destruct (opt_sent_ok p Gp) as [-> Bp].
  rewrite teid_wire_ok by apply Wt. rewrite gsn_wire_ok by exact Wg. set (body := teid_wire t ++ gsn_wire g ++ opt_sent p).
  assert (Bp' : bytes body).
  { unfold body. rewrite !bytes_app. split; [apply bytes_cons; split; [reflexivity|apply oct4_bytes, Wt]|]. split; [|exact Bp].
    apply gsn_wire_bytes; [exact Wg|intros; eapply P3; eauto|intros; eapply P4; eauto]. }
  assert (LB : nlen body = span_of (Some t) (Some g) p).
  { unfold body, span_of, nlen. rewrite !app_length. unfold teid_wire, oct4. cbn [length]. destruct p as [y|]; cbn [opt_sent length]; [pose proof (pe_sent_len y) as Z; unfold nlen in Z; lia|lia]. }
  destruct (sent_on h body G Bp') as (-> & Bb & Hlt & Hk). set (k := (nlen (hdr_wire h 0 ++ body) - 8) mod 65536) in *.
  assert (Er : length_right h (teid_wire t ++ gsn_wire g ++ opt_wire pe_wire p) <-> h_length h = k).
  { unfold length_right, k, nlen, body. rewrite !app_length. rewrite opt_sent_len. reflexivity. }
  rewrite Er. clear Er. split.
  - intros H. apply C56_error_indication in H as (h' & r' & l' & t' & g' & Hh' & _ & _ & _ & Hc' & Hs' & _ & Et' & Eg' & E); [|exact Bb].
    injection E as <- <- <- Ep.
    destruct (wire_cases _ _ _ _ G Hk Hh') as (Ek & Hcs). split; [exact Ek|].
    destruct Hcs as [[Hn ->]|[[Hn ->]|Hlt']].
    + split; [|exact Hn]. destruct p as [y|] eqn:Epp; [|exact I].
      destruct (carried_private _ _ y Hc' Hs' (eq_sym Ep)) as (s & l2 & K1 & _ & _ & _ & _ & a & Ea).
      assert (Bs : bytes s) by (rewrite Ea in Bp'; apply bytes_app in Bp'; apply Bp').
      assert (Es : s = pe_sent y); [|rewrite Es in K1; exact (pe_sent_at_inv _ K1)].
      destruct (private_got _ _ K1 Bs) as [_ Ls]. pose proof (pe_sent_len y) as Ly. unfold nlen in *.
      unfold body in Ea. cbn [opt_sent] in Ea. rewrite app_assoc in Ea.
      apply app_inj_tail_length in Ea; [symmetry; exact Ea|lia].
    + exfalso. inversion Hc' as [| | | |s y l2 K1 K2 K3]. discriminate.
    + exfalso. apply carried_span in Hc'; [|exact Hs']. rewrite Et', Eg', <- Ep in Hc'. unfold nlen in *. lia.
  - intros (Ek & Hpr & Hn). apply C56_error_indication; [exact Bb|]. rewrite <- Ek in *.
    assert (K : exists q, carries (opt_sent p) q /\ teids q = [] /\ gsns q = [] /\ (length (pes q) <= 255)%nat /\ hd_error (pes q) = p /\
                  StronglySorted N.le (map ucode q) /\ Forall (N.le 133) (map ucode q)).
    { destruct p as [y|] eqn:Epp; [|exists []; repeat split; try constructor; cbn; lia].
      destruct (carried_private _ _ y Hc Hs Epp) as (s & l2 & K1 & K2 & K3 & K4 & K5 & a & Ea).
      assert (Bs : bytes s) by (rewrite Ea in Br; apply bytes_app in Br; apply Br).
      rewrite (private_same s y K1 K2 Bs Hpr) in *. exists (UP y :: l2). destruct (private_last _ _ K5) as [T1 T2].
      split; [apply carries_pe; [exact (pe_sent_at y Gp Hpr)|reflexivity|exact K3]|]. split; [exact T1|]. split; [exact T2|]. split; [rewrite K4 in Kp; exact Kp|]. split; [reflexivity|]. split; [exact K5|].
      cbn [map] in *. apply StronglySorted_inv in K5 as [_ K5]. constructor; [cbn; lia|]. eapply Forall_impl; [|exact K5]. cbn. intros; lia. }
    destruct K as (q & K1 & K2 & K3 & K4 & K5 & K6 & K7).
    exists h, body, (UT t :: UG g :: q), t, g. split; [apply wire_natural; assumption|]. split; [exact Ht|]. split; [exact Hl|]. split; [lia|].
    split; [apply carries_sent; assumption|].
    assert (E1 : teids (UT t :: UG g :: q) = t :: teids q) by reflexivity.
    assert (E2 : gsns (UT t :: UG g :: q) = g :: gsns q) by reflexivity.
    assert (E3 : pes (UT t :: UG g :: q) = pes q) by reflexivity.
    rewrite E1, E2, E3, K2, K3, K5. split; [|split; [cbn [length]; lia|auto]].
    cbn [map ucode]. constructor; [constructor; [exact K6|exact K7]|]. constructor; [lia|]. eapply Forall_impl; [|exact K7]. cbn. intros; lia.
Qed.
Print Assumptions C94_error_indication.

(* Whichever build reads the message that was sent on. *)
Theorem C94_any_build : forall m b, bytes b ->
  (forall x, Gpdu_unmarshal Debug b = Ok x -> Forall natural (exts (gp_header x)) -> Gpdu_unmarshal m (Gpdu_marshal x []) = Ok x) /\
  (forall mt x, Simple_unmarshal mt Debug b = Ok x -> length_right (sm_header x) (opt_wire pe_wire (sm_private_ext x)) ->
     private_right (sm_private_ext x) -> Forall natural (exts (sm_header x)) -> Simple_unmarshal mt m (Simple_marshal x []) = Ok x) /\
  (forall x, EchoResponse_unmarshal Debug b = Ok x ->
     length_right (er_header x) (recovery_wire (er_recovery x) ++ opt_wire pe_wire (er_private_ext x)) ->
     private_right (er_private_ext x) -> Forall natural (exts (er_header x)) -> EchoResponse_unmarshal m (EchoResponse_marshal x []) = Ok x) /\
  (forall x, ErrorIndication_unmarshal Debug b = Ok x ->
     length_right (ei_header x) (teid_wire (ei_teid x) ++ gsn_wire (ei_peer x) ++ opt_wire pe_wire (ei_private x)) ->
     private_right (ei_private x) -> Forall natural (exts (ei_header x)) -> ErrorIndication_unmarshal m (ErrorIndication_marshal x []) = Ok x) /\
  (forall x, SupExtNotif_unmarshal Debug b = Ok x -> length_right (sn_header x) (ehtl_wire (sn_list x)) ->
     ehtl_length (sn_list x) = nlen (ehtl_list (sn_list x)) mod 256 -> Forall natural (exts (sn_header x)) ->
     SupExtNotif_unmarshal m (SupExtNotif_marshal x []) = Ok x).
Proof.
  intros m b Hb.
  assert (J : forall A (u v : res A) x, u = Panic \/ u = v -> u = Ok x -> v = Ok x) by (intros A u v x [->| ->] K; [discriminate|exact K]).
  split; [|split; [|split; [|split]]].
  - intros x H Hn. eapply J; [apply (C63_gtpu_builds_agree m)|]. apply (C94_gpdu b); assumption.
  - intros mt x H H1 H2 Hn. eapply J; [apply (C63_gtpu_builds_agree m)|]. apply (C94_echo_request_end_marker mt b); auto.
  - intros x H H1 H2 Hn. eapply J; [apply (C63_gtpu_builds_agree m)|]. apply (C94_echo_response b); auto.
  - intros x H H1 H2 Hn. eapply J; [apply (C63_gtpu_builds_agree m)|]. apply (C94_error_indication b); auto.
  - intros x H H1 H2 Hn. eapply J; [apply (C63_gtpu_builds_agree m)|]. apply (C94_supported_extension_headers b); auto.
Qed.
Print Assumptions C94_any_build.

(* Full statement: every GTP-U message received and sent on is read as the same values. False, and
   even the user data can change: a PDCP PDU number in two units of four octets is sent in one, and
   the next receiver takes the missing four octets from the user data. *)
Theorem C94_user_data_refuted : exists b h x y, bytes b /\
  Gpdu_unmarshal Debug b = Ok (mkGpdu h x) /\
  forall m, Gpdu_unmarshal m (Gpdu_marshal (mkGpdu h x) []) = Ok (mkGpdu (with_length h 13) y) /\ x = [9; 9; 9; 0; 5] /\ y = [5].
Proof.
  exists [54; 255; 0; 17; 0; 0; 0; 7; 0; 1; 0; 192; 2; 0; 7; 0; 0; 0; 0; 0; 9; 9; 9; 0; 5],
    (mkHdr 255 17 7 (Some 1) None (Some [EH_PDCPPDUNumber (mkNumExt 192 2 7)])), [9; 9; 9; 0; 5], [5].
  split; [repeat constructor|]. split; [reflexivity|]. intros []; repeat split; reflexivity.
Qed.
Print Assumptions C94_user_data_refuted.
(* So it goes on: the PDCP PDU number still says two units, and every further node takes four octets of user data, as long as the last of the
   four is zero. *)
Inductive passed_on (m : mode) : nat -> Gpdu -> Gpdu -> Prop :=
| here x : passed_on m 0 x x
| node n x y z : Gpdu_unmarshal m (Gpdu_marshal x []) = Ok y -> passed_on m n y z -> passed_on m (S n) x z.
Definition two_units (len t s v : N) : Gtpv1Header := mkHdr 255 len t (Some s) None (Some [EH_PDCPPDUNumber (mkNumExt 192 2 v)]).
Definition quads (l : list (N * N * N)) : list N := flat_map (fun q => [fst (fst q); snd (fst q); snd q; 0]) l.
Lemma two_units_read m l1 l2 t1 t2 t3 t4 s1 s2 v1 v2 a b c r : be16 l1 l2 <> 0 ->
  hdr_unmarshal m (54 :: 255 :: l1 :: l2 :: t1 :: t2 :: t3 :: t4 :: s1 :: s2 :: 0 :: 192 :: 2 :: v1 :: v2 :: 0 :: a :: b :: c :: 0 :: r) =
  Ok (two_units (be16 l1 l2) (be32 t1 t2 t3 t4) (be16 s1 s2) (be16 v1 v2)).
Proof.
  intros H. apply N.eqb_neq in H. unfold hdr_unmarshal, at_. cbn [nth_error bind length Nat.leb]. rewrite H. destruct m; reflexivity.
Qed.
Lemma one_node m len t s v a b c r : t < 4294967296 -> s < 65536 -> v < 65536 -> nlen r <= 65515 ->
  Gpdu_unmarshal m (Gpdu_marshal (mkGpdu (two_units len t s v) (a :: b :: c :: 0 :: r)) []) = Ok (mkGpdu (two_units (12 + nlen r) t s v) r).
Proof.
  intros Ht Hs Hv Hr. unfold Gpdu_marshal. cbn [app gp_header gp_tpdu].
  assert (L : nlen (hdr_marshal (two_units len t s v) ++ a :: b :: c :: 0 :: r) - 8 = 12 + nlen r).
  { unfold nlen. rewrite app_length. change (length (hdr_marshal (two_units len t s v))) with 16%nat. cbn [length]. lia. }
  rewrite set_length_hdr, L, N.mod_small by lia. assert (K : 12 + nlen r < 65536) by lia. set (k := 12 + nlen r) in *. unfold Gpdu_unmarshal.
  assert (E : hdr_unmarshal m (hdr_marshal (with_length (two_units len t s v) k) ++ a :: b :: c :: 0 :: r) = Ok (two_units k t s v)).
  { assert (KZ : be16 ((k / 256) mod 256) (k mod 256) <> 0) by (rewrite be16_enc by exact K; unfold k; lia).
    etransitivity; [apply two_units_read; exact KZ|]. change (h_length (with_length (two_units len t s v) k)) with k. rewrite !be16_enc, be32_enc by assumption. reflexivity. }
  rewrite E. cbn [bind]. change (negb (msgtype (two_units k t s v) =? GPDU)) with false. cbv iota.
  change (h_length (two_units k t s v)) with k. rewrite add16_small by lia. cbn [bind].
  assert (LP : length (hdr_marshal (with_length (two_units len t s v) k) ++ a :: b :: c :: 0 :: r) = (20 + length r)%nat) by reflexivity.
  rewrite LP. unfold nlen in *. rewrite (proj2 (Nat.leb_le _ _)) by lia.
  replace (get_header_size m (two_units k t s v)) with (@Ok GTPV1Error _ 20%nat) by (destruct m; reflexivity). cbn [bind].
  rewrite slice_ok by (rewrite ?LP; lia).
  change (hdr_marshal (with_length (two_units len t s v) k) ++ a :: b :: c :: 0 :: r) with ((hdr_marshal (with_length (two_units len t s v) k) ++ [a; b; c; 0]) ++ r).
  cbn [bind]. f_equal. f_equal. rewrite skipn_app_exact by reflexivity. apply firstn_all2. lia.
Qed.
Theorem C94_every_node_refuted : forall m l t s v len r, t < 4294967296 -> s < 65536 -> v < 65536 -> 4 * nlen l + nlen r <= 65519 -> l <> [] ->
  passed_on m (length l) (mkGpdu (two_units len t s v) (quads l ++ r)) (mkGpdu (two_units (12 + nlen r) t s v) r).
Proof.
  intros m l t s v len r Ht Hs Hv. revert len. induction l as [|[[a b] c] l IH]; intros len HL HN; [contradiction|].
  assert (H1 : nlen (quads l ++ r) = 4 * nlen l + nlen r).
  { unfold nlen. rewrite app_length. replace (length (quads l)) with (4 * length l)%nat; [lia|]. clear. induction l as [|q l IH]; [reflexivity|cbn [quads flat_map app length] in *; fold (quads l); lia]. }
  assert (H2 : nlen ((a, b, c) :: l) = 1 + nlen l) by (unfold nlen; cbn [length]; lia). rewrite H2 in HL.
  eapply node; [change (quads ((a, b, c) :: l) ++ r) with (a :: b :: c :: 0 :: quads l ++ r); apply one_node; try assumption; lia|].
  destruct l as [|q l]; [apply here|]. apply IH; [lia|discriminate].
Qed.
Print Assumptions C94_every_node_refuted.
(* All other user data passes any number of nodes. *)
Theorem C94_every_node : forall m b x n, bytes b -> Gpdu_unmarshal Debug b = Ok x -> Forall natural (exts (gp_header x)) -> passed_on m n x x.
Proof.
  intros m b x n Hb H HN. pose proof (proj1 (C94_any_build m b Hb) x H HN) as E. induction n as [|n IH]; [apply here|eapply node; [exact E|exact IH]].
Qed.
Print Assumptions C94_every_node.
(* such a message comes out of a packet: three nodes leave 2 of 14 octets *)
Example C94_every_node_case :
  let b := [54; 255; 0; 26; 0; 0; 0; 7; 0; 1; 0; 192; 2; 0; 7; 0; 0; 0; 0; 0; 9; 9; 9; 0; 8; 8; 8; 0; 7; 7; 7; 0; 5; 6] in
  Gpdu_unmarshal Debug b = Ok (mkGpdu (two_units 26 7 1 7) (quads [(9, 9, 9); (8, 8, 8); (7, 7, 7)] ++ [5; 6])) /\
  passed_on Debug 3 (mkGpdu (two_units 26 7 1 7) (quads [(9, 9, 9); (8, 8, 8); (7, 7, 7)] ++ [5; 6])) (mkGpdu (two_units 14 7 1 7) [5; 6]).
Proof.
  split; [reflexivity|]. apply (C94_every_node_refuted Debug [(9, 9, 9); (8, 8, 8); (7, 7, 7)] 7 1 7 26 [5; 6]); try reflexivity; discriminate.
Qed.
(* An Echo Request whose length field does not count what was received gets another length. *)
Theorem C94_echo_length_refuted : exists b x, bytes b /\ EchoRequest_unmarshal Debug b = Ok x /\
  forall m, EchoRequest_unmarshal m (Simple_marshal x []) <> Ok x.
Proof.
  exists [50; 1; 0; 9; 0; 0; 0; 0; 0; 1; 0; 0], (mkSimple (mkHdr 1 9 0 (Some 1) None None) None).
  split; [repeat constructor|]. split; [reflexivity|]. intros [] E; vm_compute in E; discriminate E.
Qed.
Print Assumptions C94_echo_length_refuted.

(* A G-PDU with N-PDU number but no sequence number, a UDP port, a long PDCP number with spare octets,
   a PDU session container and octets after its end. *)
Example C94_gpdu_case :
  let b := [53; 255; 0; 24; 0; 0; 1; 2; 0; 1; 3; 64; 1; 8; 104; 130; 2; 1; 2; 3; 7; 7; 7; 133; 1; 0; 9; 0; 69; 0; 1; 2; 255; 255] in
  let x := mkGpdu (mkHdr 255 24 258 (Some 1) (Some 3) (Some [EH_UDPPort (mkNumExt 64 1 2152);
             EH_LongPDCPPDUNumber (mkNumExt 130 2 66051); EH_PduSessionContainer (mkBlobExt 133 1 [0; 9])])) [69; 0; 1; 2] in
  bytes b /\ Gpdu_unmarshal Debug b = Ok x /\ Forall natural (exts (gp_header x)) /\
  Gpdu_marshal x [] <> firstn 32 b /\ Gpdu_unmarshal Release (Gpdu_marshal x []) = Ok x.
Proof.
  cbv zeta. split; [repeat constructor|]. split; [reflexivity|]. split; [repeat constructor|]. split; [discriminate|reflexivity].
Qed.
(* the chance case of an Echo Request *)
Example C94_short_last_case :
  let b := [54; 1; 0; 12; 0; 0; 0; 0; 0; 1; 0; 3; 1; 5; 6; 0] in
  let x := mkSimple (mkHdr 1 12 0 (Some 1) None (Some [EH_LongPDCPPDUNumber (mkNumExt 3 1 329216)])) None in
  bytes b /\ EchoRequest_unmarshal Debug b = Ok x /\ short_last (sm_header x) /\ ~ Forall natural (exts (sm_header x)) /\
  EchoRequest_unmarshal Debug (Simple_marshal x []) = Ok x.
Proof.
  cbv zeta. split; [repeat constructor|]. split; [reflexivity|]. split.
  { exists [], (mkNumExt 3 1 329216). repeat split. constructor. }
  split; [|reflexivity]. intros H. inversion H as [|? ? H1 _]. discriminate H1.
Qed.
Example C94_error_indication_case :
  let b := [48; 26; 0; 18; 0; 0; 0; 7; 16; 0; 0; 1; 2; 133; 0; 4; 10; 0; 0; 1; 255; 0; 3; 0; 42; 9] in
  let x := mkErrInd (mkHdr 26 18 7 None None None) (mkTeid 16 258) (mkGsn 133 4 (V4 10 0 0 1)) (Some (mkPe 255 3 42 [9])) in
  bytes b /\ ErrorIndication_unmarshal Debug b = Ok x /\
  length_right (ei_header x) (teid_wire (ei_teid x) ++ gsn_wire (ei_peer x) ++ opt_wire pe_wire (ei_private x)) /\
  private_right (ei_private x) /\ Forall natural (exts (ei_header x)).
Proof. cbv zeta. split; [repeat constructor|]. split; [reflexivity|]. repeat split. constructor. Qed.
