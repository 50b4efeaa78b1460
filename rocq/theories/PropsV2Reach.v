(* C71 and C74 in terms of the octets alone. PropsV2Hang.v says which packets crash a receiver by walking over the
   octets with the decoder itself; here the walk is [reached] of V2ReachSpec.v, which knows only the octets. *)
From Coq Require Import String.
From Verif Require Import Base BaseFacts Octets V2Base V2BaseFacts V2Decoder V2DecFacts V2WireSpec V2CrashSpec V2HangSpec V2LongSpec V2CrashAll V2ReachSpec.
From Verif Require Import V2Msg V2MsgSpec V2MsgReadSpec V2MsgReadFacts V2MsgWire V2MsgLayouts.
From Verif Require ModeFacts V2ModeFacts V2ReadSpec V2ReadFacts V2ListSpec V2ListFacts V2Hang PropsV2Hang.
Notation length := List.length.
Local Open Scope N_scope.

Lemma head_iff b e n : Forall (fun o => o < 256) b ->
  (V2ListSpec.head_says b e n <-> b <> [] /\ decode_one (decoder Debug) Debug b = Ok e /\ ie_len Debug e = Ok n).
Proof.
  intros Hb. destruct b as [|t q]; [split; [intros H; inversion H|intros [H _]; contradiction]|].
  assert (V : forall a b c q', q = a :: b :: c :: q' -> Forall (fun o => o < 256) (firstn (N.to_nat (256 * a + b)) q')).
  { intros a b c q' ->. do 4 apply Forall_inv_tail in Hb. apply bytes_firstn. exact Hb. }
  split.
  - intros H. split; [discriminate|].
    assert (HM : V2ListFacts.mean (V2ListFacts.got_dec (decoder Debug)) (snd (V2ListSpec.kind_of_code t)) (t :: q) = Some e /\
                 V2ListSpec.next_after (fst (V2ListSpec.kind_of_code t)) (t :: q) e = Some n).
    { inversion H as [t' q' x r e' n' K R Nx | t' a b c q' x f l' e' n' K F M G Nx]; subst; rewrite K; cbn [fst snd V2ListFacts.mean]; [auto|].
      split; [|exact Nx]. rewrite F. unfold V2ListFacts.got_dec. rewrite (proj2 (V2ListFacts.decoder_iff _ _ (V _ _ _ _ eq_refl)) M). exact G. }
    destruct HM as [HM HN]. split.
    + apply V2ListFacts.got_ok. rewrite V2ListFacts.one_eq by exact Hb. exact HM.
    + destruct (V2ListFacts.code_sized t _ _ _ HM) as [HS _]. rewrite HN in HS. apply V2ListFacts.got_ok. exact HS.
  - intros (_ & E1 & E2). pose proof (V2ListFacts.one_eq (decoder Debug) t q Hb) as HM. rewrite E1 in HM. cbn [V2ReadFacts.got] in HM. symmetry in HM.
    destruct (V2ListFacts.code_sized t _ _ _ HM) as [HS _]. rewrite E2 in HS. cbn [V2ReadFacts.got] in HS. symmetry in HS.
    destruct (V2ListSpec.kind_of_code t) as [x [rd|g]] eqn:EK; cbn [fst snd V2ListFacts.mean] in HM, HS.
    + apply (V2ListSpec.head_plain t q x rd); assumption.
    + destruct q as [|a0 [|b0 [|c0 q]]]; try discriminate. destruct (V2ReadSpec.fits _ _) eqn:Hf; [|discriminate]. unfold V2ListFacts.got_dec in HM.
      destruct (decoder Debug _) as [l| | |] eqn:E4; cbn [V2ReadFacts.got] in HM; try discriminate.
      apply (V2ListSpec.head_group t a0 b0 c0 q x g l); try assumption. apply V2ListFacts.decoder_iff; [exact (V _ _ _ _ eq_refl)|exact E4].
Qed.
Lemma value_bytes b : Forall (fun o => o < 256) b -> Forall (fun o => o < 256) (value_of b).
Proof. intros Hb. unfold value_of. apply bytes_firstn, bytes_skipn, Hb. Qed.
Lemma reached_debug b s : Forall (fun o => o < 256) b -> (reached b s <-> comes_to Debug b s).
Proof.
  intros Hb. split; intros H; revert Hb.
  - induction H as [b Hn|b e n s HH HR IH|b s G F D HR IH]; intros Hb; [apply come_here; exact Hn| |apply come_inside; [assumption..|apply IH, value_bytes, Hb]].
    apply head_iff in HH as (_ & E1 & E2); [|exact Hb]. exact (come_next Debug b e n s E1 E2 (IH (bytes_skipn _ _ Hb))).
  - induction H as [b Hn|b e n s E1 E2 HR IH|b s G F D HR IH]; intros Hb; [apply reach_here; exact Hn| |apply reach_inside; [assumption..|apply IH, value_bytes, Hb]].
    apply (reach_next b e n); [|apply IH, bytes_skipn, Hb]. apply head_iff; [exact Hb|]. split; [|auto]. intros ->. discriminate E1.
Qed.
(* what the octets say is read in both builds *)
Lemma reached_comes m b s : Forall (fun o => o < 256) b -> reached b s -> comes_to m b s.
Proof.
  intros Hb H. revert Hb. induction H as [b Hn|b e n s HH HR IH|b s G F D HR IH]; intros Hb; [apply come_here; exact Hn| |apply come_inside; [assumption..|apply IH, value_bytes, Hb]].
  apply head_iff in HH as (_ & E1 & E2); [|exact Hb].
  apply (ModeFacts.refines_ok _ _ _ (V2ModeFacts.decode_one_same _ _ m b (V2ModeFacts.decoder_same m))) in E1.
  apply (ModeFacts.refines_ok _ _ _ (V2ModeFacts.ie_len_same m e)) in E2. exact (come_next m b e n s E1 E2 (IH (bytes_skipn _ _ Hb))).
Qed.

(* A debug build crashes exactly where the octets lead to an element that crashes it. *)
Theorem C71_debug_octets : forall b, Forall (fun o => o < 256) b ->
  (decoder Debug b = Panic <-> exists s, reached b s /\ element_crashes Debug s).
Proof.
  intros b Hb. rewrite (PropsV2Hang.C71_decoder_exact Debug b Hb). unfold elements_crash. split; intros (s & R & C); exists s; (split; [|exact C]); apply reached_debug; assumption.
Qed.
Print Assumptions C71_debug_octets.
(* A release build crashes there too, unless the element is one that crashes only a debug build. *)
Theorem C71_release_octets : forall b s, Forall (fun o => o < 256) b -> reached b s -> element_crashes Release s -> decoder Release b = Panic.
Proof. intros b s Hb R C. apply PropsV2Hang.C71_decoder_exact; [exact Hb|]. exists s. split; [apply reached_comes; assumption|exact C]. Qed.
Print Assumptions C71_release_octets.
(* and it does not come to an end where they lead to an element that comes out with the size 0. *)
Theorem C74_release_octets : forall b s, Forall (fun o => o < 256) b -> reached b s -> repeats s -> decoder Release b = Diverge.
Proof. intros b s Hb R C. apply PropsV2Hang.C74_decoder_hang; [exact Hb|]. split; [reflexivity|]. exists s. split; [apply reached_comes; assumption|exact C]. Qed.
Print Assumptions C74_release_octets.
(* Both builds do the same, and decoding ends, unless an element that is read declares more than 65531 octets; and then
   what crashes the receiver is an element whose reading runs over the end of the octets. *)
Theorem C71_short_octets : forall m b, Forall (fun o => o < 256) b -> all_short b ->
  decoder m b = decoder Debug b /\ decoder m b <> Diverge /\ (decoder m b = Panic <-> exists s, reached b s /\ overruns s).
Proof.
  intros m b Hb HS.
  assert (C : forall m' s, reached b s -> (element_crashes m' s <-> overruns s)).
  { intros m' s R. specialize (HS s R). unfold element_crashes. split; [intros [[_ K]|[K _]]; [exact K|lia]|intros K; left; auto]. }
  assert (E : decoder m b = decoder Debug b).
  { destruct (V2ModeFacts.decoder_same m b) as [P|P]; [|symmetry; exact P]. rewrite P. apply C71_debug_octets in P as (s & R & K); [|exact Hb].
    apply PropsV2Hang.C71_decoder_exact; [exact Hb|]. exists s. split; [apply reached_comes; assumption|]. apply C; [exact R|]. apply (C Debug s R), K. }
  split; [exact E|]. rewrite E. split; [intros D; exact (PropsV2Hang.C74_debug_ends b Hb D)|]. rewrite (C71_debug_octets b Hb).
  split; intros (s & R & K); exists s; (split; [exact R|]); apply (C Debug s R), K.
Qed.
Print Assumptions C71_short_octets.
(* The same of packets. *)
Definition packet_leads_to (name : String.string) (type : N) (b : list N) (P : list N -> Prop) : Prop :=
  exists h, header_says b h /\ h2_msgtype h = type /\ name <> "VersionNotSupported"%string /\ h2_length h + 4 <= nlen b /\
    (h2_length h + 4 < N.of_nat (elements_from name) \/ exists o s, element_octets name b h o /\ reached o s /\ P s).
Lemma octets_bytes name b h o : Forall (fun x => x < 256) b -> element_octets name b h o -> Forall (fun x => x < 256) o.
Proof. intros Hb H. apply element_octets_iff in H as [_ ->]. apply bytes_firstn, bytes_skipn, Hb. Qed.
Theorem C71_debug_packet : forall d L b, In (d, L) gtpv2_messages -> Forall (fun o => o < 256) b ->
  (msg_unmarshal d Debug b = Panic <-> packet_leads_to (md_name d) (md_type d) b (element_crashes Debug)).
Proof.
  intros d L b H Hb. rewrite (PropsV2Hang.C71_message_exact d L Debug b H Hb). unfold PropsV2Hang.packet_crashes, packet_leads_to.
  split; intros (h & A1 & A2 & A3 & A4 & K); exists h; do 4 (split; [assumption|]); (destruct K as [K|K]; [left; exact K|right]).
  - destruct K as (o & Ho & s & R & C). exists o, s. split; [exact Ho|]. split; [|exact C]. apply reached_debug; [eapply octets_bytes; eassumption|exact R].
  - destruct K as (o & s & Ho & R & C). exists o. split; [exact Ho|]. exists s. split; [|exact C]. apply reached_debug; [eapply octets_bytes; eassumption|exact R].
Qed.
Print Assumptions C71_debug_packet.
Theorem C71_short_packet : forall d L m b, In (d, L) gtpv2_messages -> Forall (fun o => o < 256) b ->
  (forall h o, header_says b h -> element_octets (md_name d) b h o -> all_short o) ->
  msg_unmarshal d m b = msg_unmarshal d Debug b /\ msg_unmarshal d m b <> Diverge /\
  (msg_unmarshal d m b = Panic <-> packet_leads_to (md_name d) (md_type d) b overruns).
Proof.
  intros d L m b H Hb HS.
  assert (W : packet_leads_to (md_name d) (md_type d) b (element_crashes Debug) <-> packet_leads_to (md_name d) (md_type d) b overruns).
  { unfold packet_leads_to. split; intros (h & A1 & A2 & A3 & A4 & K); exists h; do 4 (split; [assumption|]); (destruct K as [K|K]; [left; exact K|right]);
      destruct K as (o & s & Ho & R & C); exists o, s; (split; [exact Ho|]); (split; [exact R|]); pose proof (HS h o A1 Ho s R) as D.
    - destruct C as [[_ C]|[C _]]; [exact C|lia].
    - left. auto. }
  assert (E : msg_unmarshal d m b = msg_unmarshal d Debug b).
  { destruct (V2ModeFacts.msg_same d m b) as [P|P]; [|symmetry; exact P]. rewrite P.
    apply (C71_debug_packet d L b H Hb), W in P. destruct P as (h & A1 & A2 & A3 & A4 & K). apply (PropsV2Hang.C71_message_exact d L m b H Hb). exists h. do 4 (split; [assumption|]).
    destruct K as [K|(o & s & Ho & R & C)]; [left; exact K|right]. exists o. split; [exact Ho|]. exists s. split; [apply reached_comes; [eapply octets_bytes; eassumption|exact R]|].
    left. split; [exact (HS h o A1 Ho s R)|exact C]. }
  split; [exact E|]. rewrite E. split; [|rewrite (C71_debug_packet d L b H Hb); exact W].
  intros D. apply (PropsV2Hang.C74_message_hang d L Debug b H Hb) in D as (h & o & _ & _ & _ & _ & D & _). discriminate D.
Qed.
Print Assumptions C71_short_packet.

(* --- cases ---------------------------------------------------------------------------------------------------- *)
(* a bearer context with a bearer id, then one with a F-TEID that is cut short: the octets lead to the F-TEID *)
Definition led : list N := [93; 0; 5; 0; 73; 0; 1; 0; 5; 93; 0; 8; 1; 87; 0; 4; 0; 128; 1; 2; 3].
Example C71_witness_reached : reached led [87; 0; 4; 0; 128; 1; 2; 3] /\ decoder Debug led = Panic.
Proof.
  split; [|vm_compute; reflexivity].
  assert (E : exists e, V2ListSpec.head_says led e 9).
  { destruct (decode_one (decoder Debug) Debug led) as [e| | |] eqn:E; try (vm_compute in E; discriminate E). exists e. apply head_iff; [unfold led; repeat constructor|].
    split; [discriminate|]. split; [exact E|]. vm_compute in E. apply Ok_inj in E. subst e. vm_compute. reflexivity. }
  destruct E as [e E]. apply (reach_next led e 9); [exact E|]. apply reach_inside.
  - vm_compute. tauto.
  - split; [vm_compute; discriminate|vm_compute; repeat constructor].
  - vm_compute. discriminate.
  - apply reach_here. discriminate.
Qed.
(* octets all of whose elements are short *)
Example C71_witness_short : all_short [73; 0; 1; 0; 5; 3; 0; 1; 0; 7] /\ decoder Release [73; 0; 1; 0; 5; 3; 0; 1; 0; 7] = decoder Debug [73; 0; 1; 0; 5; 3; 0; 1; 0; 7].
Proof.
  assert (S : all_short [73; 0; 1; 0; 5; 3; 0; 1; 0; 7]).
  { intros s R. apply reached_debug in R; [|repeat constructor].
    inversion R as [? ?|? e n ? E1 E2 R1|? ? G]; subst; [vm_compute; discriminate| |exfalso; vm_compute in G; intuition discriminate].
    vm_compute in E1. apply Ok_inj in E1. subst e. vm_compute in E2. apply Ok_inj in E2. subst n. cbn [skipn] in R1.
    inversion R1 as [? ?|? e n ? E1 E2 R2|? ? G]; subst; [vm_compute; discriminate| |exfalso; vm_compute in G; intuition discriminate].
    vm_compute in E1. apply Ok_inj in E1. subst e. vm_compute in E2. apply Ok_inj in E2. subst n. cbn [skipn] in R2.
    destruct (V2Hang.comes_nil Debug s R2). }
  split; [exact S|]. apply C71_short_octets; [repeat constructor|exact S].
Qed.
