(* C74: which GTPv2-C packets a receiver decodes without end, and C71 for all packets: which of them crash it. The
   conditions are in V2HangSpec.v and V2LongSpec.v: [repeats s] says that the information element at the head of [s] is
   read and comes out with the size 0, [element_crashes m s] that reading it panics, and [comes_to m b s] that an element
   is read at [s] while [b] is decoded. A decoder of the model gives Diverge when its loop has run more often than there
   are octets; C74_rounds says that no other number of rounds would have been enough. *)
From Coq Require Import String.
From Verif Require Import Base BaseFacts V2Base V2BaseFacts V2Decoder V2DecFacts V2WireSpec V2CrashSpec V2HangSpec V2LongSpec V2CrashAll.
From Verif Require Import V2Msg V2MsgSpec V2MsgReadSpec V2MsgReadFacts V2MsgWire V2MsgLayouts.
From Verif Require PropsV2Msg PropsV2Crash.
Notation length := List.length.
Local Open Scope N_scope.

(* --- lists of elements ---------------------------------------------------------------------------------------- *)
Theorem C74_decoder_hang : forall m b, Forall (fun o => o < 256) b -> (decoder m b = Diverge <-> elements_hang m b).
Proof. intros m b Hb. apply spins_iff, decoder_hang, Hb. Qed.
Print Assumptions C74_decoder_hang.
Theorem C71_decoder_exact : forall m b, Forall (fun o => o < 256) b -> (decoder m b = Panic <-> elements_crash m b).
Proof. intros m b Hb. apply panics_iff, decoder_panics, Hb. Qed.
Print Assumptions C71_decoder_exact.
(* The element that repeats is read again however often the loop runs. *)
Theorem C74_rounds : forall s, Forall (fun o => o < 256) s -> s <> [] ->
  (repeats s <-> forall rounds, ie_loop (decode_one (decoder Release) Release) Release rounds s = Diverge /\
     exists e, decode_one (decoder Release) Release s = Ok e /\ ie_len Release e = Ok 0%nat).
Proof.
  intros s Hb Hn. split.
  - intros H rounds. destruct (repeats_stays (decoder Release) s Hn Hb H) as (e & E & L). split; [eapply stuck; eassumption|eauto].
  - intros H. destruct (H 0%nat) as (_ & e & E & L). eapply stays_repeats; eassumption.
Qed.
Print Assumptions C74_rounds.
Theorem C74_debug_ends : forall b, Forall (fun o => o < 256) b -> decoder Debug b <> Diverge.
Proof. intros b Hb H. apply C74_decoder_hang in H as [H _]; [discriminate H|exact Hb]. Qed.
Print Assumptions C74_debug_ends.

Lemma answer {A} (r : res A) (P Q : Prop) : (r = Panic <-> P) -> (r = Diverge <-> Q) -> ((exists x, r = Ok x) \/ (exists e, r = Err e) <-> ~ P /\ ~ Q).
Proof.
  intros HP HQ. destruct r as [x|e| |]; split.
  - intros _. split; intros H; [apply HP in H|apply HQ in H]; discriminate.
  - intros _. left. eauto.
  - intros _. split; intros H; [apply HP in H|apply HQ in H]; discriminate.
  - intros _. right. eauto.
  - intros [[x H]|[e H]]; discriminate.
  - intros [H _]. exfalso. apply H, HP. reflexivity.
  - intros [[x H]|[e H]]; discriminate.
  - intros [_ H]. exfalso. apply H, HQ. reflexivity.
Qed.
(* In all other cases there is an answer. *)
Theorem C74_decoder_answer : forall m b, Forall (fun o => o < 256) b ->
  ((exists l, decoder m b = Ok l) \/ (exists e, decoder m b = Err e) <-> ~ elements_crash m b /\ ~ elements_hang m b).
Proof. intros m b Hb. apply answer; [apply C71_decoder_exact, Hb|apply C74_decoder_hang, Hb]. Qed.
Print Assumptions C74_decoder_answer.

(* --- packets -------------------------------------------------------------------------------------------------- *)
Definition packet_crashes (m : mode) (name : String.string) (type : N) (b : list N) : Prop :=
  exists h, header_says b h /\ h2_msgtype h = type /\ name <> "VersionNotSupported"%string /\ h2_length h + 4 <= nlen b /\
    (h2_length h + 4 < N.of_nat (elements_from name) \/ exists o, element_octets name b h o /\ elements_crash m o).
Definition packet_hangs (m : mode) (name : String.string) (type : N) (b : list N) : Prop :=
  exists h o, header_says b h /\ h2_msgtype h = type /\ name <> "VersionNotSupported"%string /\ element_octets name b h o /\ elements_hang m o.

(* what unmarshalling does, in terms of what decoding the elements does *)
Lemma message_outcome d L m b : In (d, L) gtpv2_messages -> Forall (fun o => o < 256) b ->
  panics (packet_crashes m (md_name d) (md_type d) b) (msg_unmarshal d m b) /\ spins (packet_hangs m (md_name d) (md_type d) b) (msg_unmarshal d m b).
Proof.
  intros H Hb. pose proof starts_from as S. rewrite forallb_forall in S. specialize (S _ H). cbn [fst snd] in S.
  assert (QUIET : forall r : res message, returns r -> ~ packet_crashes m (md_name d) (md_type d) b -> ~ packet_hangs m (md_name d) (md_type d) b ->
    panics (packet_crashes m (md_name d) (md_type d) b) r /\ spins (packet_hangs m (md_name d) (md_type d) b) r).
  { intros r R N1 N2. split; [apply panics_no; [exact N1|]|apply spins_no; [exact N2|]]; intros ->; exact R. }
  unfold msg_unmarshal. pose proof (h2_returns b) as R. destruct (h2_unmarshal b) as [h|e| |] eqn:Hh; try contradiction.
  2:{ apply QUIET; [exact I| |]; [intros (h & K & _)|intros (h & o & K & _)]; apply header_says_iff in K; congruence. }
  assert (U : forall h', header_says b h' -> h' = h) by (intros h' K; apply header_says_iff in K; congruence).
  apply header_says_iff in Hh. cbn [bind]. destruct (N.eqb_spec (h2_msgtype h) (md_type d)) as [Et|Et]; cbn [negb].
  2:{ apply QUIET; [exact I| |]; [intros (h' & K & K1 & _)|intros (h' & o & K & K1 & _)]; rewrite (U _ K) in K1; contradiction. }
  destruct (md_start d) as [s|].
  2:{ apply andb_true_iff in S as [S _]. apply String.eqb_eq in S. apply QUIET; [exact I| |]; [intros (h' & _ & _ & K & _)|intros (h' & o & _ & _ & K & _)]; contradiction. }
  apply andb_true_iff in S as [S1 S2]. apply Nat.eqb_eq in S1. subst s. apply negb_true_iff, String.eqb_neq in S2.
  unfold MANDATORY_HDR_LENGTH. destruct (Nat.leb_spec (N.to_nat (h2_length h) + 4) (length b)) as [Hl|Hl].
  2:{ apply QUIET; [exact I| |]; [intros (h' & K & _ & _ & K1 & _)|intros (h' & o & K & _ & _ & K1 & _)]; rewrite (U _ K) in K1; [unfold nlen in K1; lia|].
      apply element_octets_iff in K1 as [[_ K1] _]. lia. }
  destruct (Nat.le_gt_cases (elements_from (md_name d)) (N.to_nat (h2_length h) + 4)) as [He|He].
  - set (o := firstn (N.to_nat (h2_length h) + 4 - elements_from (md_name d)) (skipn (elements_from (md_name d)) b)).
    assert (Eo : element_octets (md_name d) b h o) by (apply element_octets_iff; split; [split; assumption|reflexivity]).
    assert (Sl : slice b (elements_from (md_name d)) (N.to_nat (h2_length h) + 4) = Ok (E:=GTPV2Error) o).
    { unfold slice. replace (_ && _)%bool with true; [reflexivity|]. symmetry. apply andb_true_iff. split; apply Nat.leb_le; assumption. }
    rewrite Sl. cbn [bind].
    assert (Bo : Forall (fun x => x < 256) o) by (apply bytes_firstn, bytes_skipn; exact Hb).
    assert (UO : forall h' o', header_says b h' -> element_octets (md_name d) b h' o' -> o' = o).
    { intros h' o' K K1. rewrite (U _ K) in K1. apply element_octets_iff in K1 as [_ ->]. reflexivity. }
    assert (TR : forall l, returns (bind (fromvec d l) (fun x => Ok (mkMsg h x)))) by (intros l; unfold fromvec; destruct (decide _ _); exact I).
    split.
    + apply (panics_ext (elements_crash m o)).
      * split; [intros K; exists h; do 3 (split; [assumption|]); split; [unfold nlen; lia|]; right; exists o; auto|].
        intros (h' & K & _ & _ & _ & [K1|(o' & K1 & K2)]); [rewrite (U _ K) in *; lia|]. rewrite <- (UO h' o' K K1). exact K2.
      * apply panics_bind; [apply decoder_panics, Bo|exact TR].
    + apply (spins_ext (elements_hang m o)).
      * split; [intros K; exists h, o; auto|]. intros (h' & o' & K & _ & _ & K1 & K2). rewrite <- (UO h' o' K K1). exact K2.
      * apply spins_bind; [apply decoder_hang, Bo|]. intros l E. specialize (TR l). rewrite E in TR. exact TR.
  - assert (Sl : slice b (elements_from (md_name d)) (N.to_nat (h2_length h) + 4) = Panic (E:=GTPV2Error)).
    { unfold slice. replace (_ && _)%bool with false; [reflexivity|]. symmetry. apply andb_false_iff. left. apply Nat.leb_gt. exact He. }
    rewrite Sl. cbn [bind]. split.
    + left. split; [|reflexivity]. exists h. do 3 (split; [assumption|]). split; [unfold nlen; lia|]. left. lia.
    + apply spins_no; [|apply halts_panic]. intros (h' & o' & K & _ & _ & K1 & _). rewrite (U _ K) in K1. apply element_octets_iff in K1 as [[K1 _] _]. lia.
Qed.
Theorem C71_message_exact : forall d L m b, In (d, L) gtpv2_messages -> Forall (fun o => o < 256) b ->
  (msg_unmarshal d m b = Panic <-> packet_crashes m (md_name d) (md_type d) b).
Proof. intros d L m b H Hb. apply panics_iff. eapply message_outcome; eassumption. Qed.
Print Assumptions C71_message_exact.
Theorem C74_message_hang : forall d L m b, In (d, L) gtpv2_messages -> Forall (fun o => o < 256) b ->
  (msg_unmarshal d m b = Diverge <-> packet_hangs m (md_name d) (md_type d) b).
Proof. intros d L m b H Hb. apply spins_iff. eapply message_outcome; eassumption. Qed.
Print Assumptions C74_message_hang.
Theorem C74_message_answer : forall d L m b, In (d, L) gtpv2_messages -> Forall (fun o => o < 256) b ->
  ((exists x, msg_unmarshal d m b = Ok x) \/ (exists e, msg_unmarshal d m b = Err e) <->
   ~ packet_crashes m (md_name d) (md_type d) b /\ ~ packet_hangs m (md_name d) (md_type d) b).
Proof. intros d L m b H Hb. apply answer; [eapply C71_message_exact|eapply C74_message_hang]; eassumption. Qed.
Print Assumptions C74_message_answer.

(* In a packet only six of the nine kinds can hang the receiver: the length field of the header has 16 bits, so there are
   never all the octets such an element declares. *)
Lemma comes_shorter m b s : comes_to m b s -> (length s <= length b)%nat.
Proof.
  intros H. induction H as [b Hn|b e n s E L H IH|b s G F Ld H IH]; [lia| |].
  - rewrite skipn_length in IH. lia.
  - unfold value_of in IH. rewrite firstn_length, skipn_length in IH. lia.
Qed.
Lemma header_length_lt b h : Forall (fun o => o < 256) b -> header_says b h -> h2_length h < 65536.
Proof.
  intros Hb (_ & _ & _ & -> & _). unfold number_at. assert (B : Forall (fun o => o < 256) (firstn 2 (skipn 2 b))) by (apply bytes_firstn, bytes_skipn; exact Hb).
  pose proof (firstn_le_length 2 (skipn 2 b)) as L. destruct (firstn 2 (skipn 2 b)) as [|x [|y [|? ?]]]; cbn [length] in L; try lia; unfold base256; cbn [fold_left].
  - lia.
  - inversion B; subst. lia.
  - inversion B as [|? ? B1 B2]; subst. inversion B2; subst. lia.
Qed.
Theorem C74_packet_kinds : forall m name type b, Forall (fun o => o < 256) b -> packet_hangs m name type b ->
  m = Release /\ exists o s, comes_to m o s /\ repeats s /\ In (oct s 0) [87; 116; 118; 132; 193; 205].
Proof.
  intros m name type b Hb (h & o & Hh & _ & _ & Ho & Hm & s & Hs & Hr). split; [exact Hm|]. exists o, s. split; [exact Hs|]. split; [exact Hr|].
  assert (NC : ~ complete s).
  { apply comes_shorter in Hs. apply element_octets_iff in Ho as [[Ho1 Ho2] Eo]. assert (Lo : (length o <= N.to_nat (h2_length h) + 4 - elements_from name)%nat) by (rewrite Eo; apply firstn_le_length).
    assert (E8 : (8 <= elements_from name)%nat) by (unfold elements_from; repeat match goal with |- context [if ?c then _ else _] => destruct c end; lia).
    assert (Lh : h2_length h < 65536) by (eapply header_length_lt; eassumption). unfold complete, nlen. lia. }
  destruct Hr as (D & P & HI & HP). cbn [In repeat_table] in HI.
  destruct HI as [HI|[HI|[HI|[HI|[HI|[HI|[HI|[HI|[HI|[]]]]]]]]]]; pose proof (f_equal fst HI) as T; pose proof (f_equal snd HI) as T'; cbn [fst snd] in T, T'; subst P; rewrite <- T; cbn [In]; try tauto.
Qed.
Print Assumptions C74_packet_kinds.
(* Each of them does, on some octets. *)
Definition hanging : list (list N) :=
  [ [87; 255; 252; 0; 128; 1; 2; 3; 4; 10; 0; 0; 1];
    [116; 255; 252; 0; 2];
    [118; 255; 252; 0; 0];
    [132; 255; 252; 0; 1; 10; 0; 0; 1; 0; 7];
    [193; 255; 252; 0; 1; 10; 0; 0; 1];
    [205; 255; 252; 0; 0; 241; 16; 0; 0; 1; 0; 0; 0; 0; 4; 10; 0; 0; 1] ].
Theorem C74_hanging_kinds : forall t, In t [87; 116; 118; 132; 193; 205] -> exists s, oct s 0 = t /\ (length s < 20)%nat /\ repeats s /\ decoder Release s = Diverge.
Proof.
  intros t H. assert (K : Forall (fun s => Forall (fun o => o < 256) s /\ s <> [] /\ (length s < 20)%nat /\ decoder Release s = Diverge /\ exists e, decode_one (decoder Release) Release s = Ok e /\ ie_len Release e = Ok 0%nat) hanging).
  { repeat (apply Forall_cons; [split; [repeat constructor|split; [discriminate|split; [cbn [length]; lia|split; [vm_compute; reflexivity|eexists; split; vm_compute; reflexivity]]]]|]). apply Forall_nil. }
  assert (M : forallb (fun t => existsb (fun s => oct s 0 =? t) hanging) [87; 116; 118; 132; 193; 205] = true) by reflexivity.
  rewrite forallb_forall in M. specialize (M t H). apply existsb_exists in M as (s & M1 & M2). apply N.eqb_eq in M2. rewrite Forall_forall in K. destruct (K s M1) as (K1 & K2 & K3 & K4 & e & K5 & K6).
  exists s. split; [exact M2|]. split; [exact K3|]. split; [|exact K4]. eapply stays_repeats; eassumption.
Qed.
Print Assumptions C74_hanging_kinds.

(* --- cases ---------------------------------------------------------------------------------------------------- *)
Definition msg_with (o : list N) : list N := PropsV2Crash.update_bearer_with o.
(* a F-TEID in a bearer context that declares 65532 octets: release builds never answer, debug builds crash *)
Definition hanging_packet : list N := msg_with ([93; 0; 13; 0] ++ [87; 255; 252; 0; 128; 1; 2; 3; 4; 10; 0; 0; 1]).
Example C74_witness_packet : packet_hangs Release "UpdateBearerRequest" 97 hanging_packet /\ packet_crashes Debug "UpdateBearerRequest" 97 hanging_packet.
Proof.
  assert (M : exists L, In (V2MsgTables.md_updatebearerreq, L) gtpv2_messages) by (eexists; unfold gtpv2_messages; cbn [In]; repeat (first [left; reflexivity|right])).
  destruct M as [L M]. split; [apply (C74_message_hang _ L Release hanging_packet M)|apply (C71_message_exact _ L Debug hanging_packet M)]; try (repeat constructor); vm_compute; reflexivity.
Qed.
(* one octet less declared, and the remaining octets would have to be there: the packet is refused *)
Example C74_witness_refused : forall m, exists e, msg_unmarshal V2MsgTables.md_updatebearerreq m (msg_with ([93; 0; 13; 0] ++ [87; 255; 251; 0; 128; 1; 2; 3; 4; 10; 0; 0; 1])) = Err e.
Proof. intros m. eexists. destruct m; vm_compute; reflexivity. Qed.
(* 65533: the size is 1, and what follows is read as an element of the type 255 *)
Example C74_witness_wrap : repeats [87; 255; 252; 0; 128; 1; 2; 3; 4; 10; 0; 0; 1] /\ ~ repeats [87; 255; 253; 0; 128; 1; 2; 3; 4; 10; 0; 0; 1] /\
  comes_to Release [87; 255; 253; 0; 128; 1; 2; 3; 4; 10; 0; 0; 1] [255; 253; 0; 128; 1; 2; 3; 4; 10; 0; 0; 1].
Proof.
  split; [split; [reflexivity|]; eexists; split; [do 2 right; left; reflexivity|]; vm_compute; split; [discriminate|repeat constructor]|].
  split; [intros [D _]; vm_compute in D; discriminate D|].
  eapply come_next; [vm_compute; reflexivity|vm_compute; reflexivity|]. apply come_here. discriminate.
Qed.
(* an IMSI that declares 65533 octets: a release build slices behind the end, a debug build computes the sum *)
Example C71_witness_long : forall m, element_crashes m [1; 255; 253; 0; 0].
Proof. intros m. right. split; [reflexivity|]. left. left. exists 5%nat, cut_short. split; [left; reflexivity|]. split; [repeat constructor|]. right. unfold cut_short. apply Nat.ltb_lt. vm_compute. reflexivity. Qed.
(* an IP address with that length: only a debug build crashes *)
Example C71_witness_long_debug : elements_crash Debug [74; 255; 253; 0; 10; 0; 0; 1] /\ ~ elements_crash Release [74; 255; 253; 0; 10; 0; 0; 1].
Proof. split; [apply C71_decoder_exact; [repeat constructor|vm_compute; reflexivity]|]. rewrite <- C71_decoder_exact by repeat constructor. vm_compute. discriminate. Qed.
(* the trace information crashes a debug build when its size is computed *)
Example C71_witness_trace : element_crashes Debug [205; 255; 252; 0; 0; 241; 16; 0; 0; 1; 0; 0; 0; 0; 4; 10; 0; 0; 1].
Proof. right. split; [reflexivity|]. right. split; [reflexivity|]. split; [reflexivity|]. left. vm_compute. split; [reflexivity|repeat constructor]. Qed.
Example C74_witness_answer : forall m, ~ packet_crashes m "UpdateBearerRequest" 97 PropsV2Crash.complete_packet /\ ~ packet_hangs m "UpdateBearerRequest" 97 PropsV2Crash.complete_packet.
Proof.
  intros m. assert (M : exists L, In (V2MsgTables.md_updatebearerreq, L) gtpv2_messages) by (eexists; unfold gtpv2_messages; cbn [In]; repeat (first [left; reflexivity|right])).
  destruct M as [L M]. apply (C74_message_answer _ L m _ M); [repeat constructor|]. left. apply PropsV2Crash.C71_witness_returns.
Qed.
