(* PropsV2Ie.v - the properties of the GTPv2 information elements and of the IE list decoder
   (C14, C16 to C25). The specification vocabulary is in V2IeSpec.v, V2OkA.v to V2OkF.v and V2DecSpec.v
   (well-formed values), V2WireSpec.v (wire layout, type codes) and V2OwnSpec.v (the decoder of each kind). *)
From Verif Require Import Base.
From Verif Require Import V2Base V2DecSpec V2DecFacts V2WireSpec V2DecMore V2HaltFacts V2DecLoop V2DecTame V2OwnSpec V2OwnFacts V2IeFacts V2BaseFacts V2IeFFacts.
From Coq Require Import Lia.
Local Open Scope N_scope.

Definition t_plmn := mkPlmn 262 1 false.

(* ------------------------------------------------------------------------- *)
(* C14                                                                        *)

(* Every kind but three is written as type code, length of the value, instance, value, the type code being
   the one 3GPP TS 29.274 gives the kind. For a Uli the type is a field of the struct. Monitoring
   Event Information puts four flags in the upper half of the instance octet. *)
Theorem C14_ie_framing : forall e,
  (match e with IE_TraceReference _ | IE_Unknown _ => False | IE_Uli i => ie_t i = 86 | _ => True end) ->
  exists code i v, has_code e code /\ ie_marshal e = framed code i v /\
    (i = ie_instance e \/ exists x, e = IE_MonitoringEventInformation x /\ N.land i 15 = N.land (ie_instance e) 15).
Proof. exact ie_framed. Qed.
Print Assumptions C14_ie_framing.

(* The two length octets give the number of value octets that follow. *)
Theorem C14_length_field : forall code i v rest, nlen v < 65536 -> declared (framed code i v ++ rest) = nlen v.
Proof.
  intros code i v rest H. unfold declared, framed, be16. cbn [app nth]. rewrite (N.mod_small (nlen v / 256) 256).
  - rewrite (N.div_mod (nlen v) 256) at 3 by lia. lia.
  - apply N.div_lt_upper_bound; lia.
Qed.
Print Assumptions C14_length_field.

(* Longer values are cut silently: the field holds the size modulo 65536. *)
Theorem C14_length_field_wraps : forall code i v rest, declared (framed code i v ++ rest) = nlen v mod 65536.
Proof.
  intros code i v rest. unfold declared, framed, be16. cbn [app nth].
  change 65536 with (256 * 256). rewrite N.mod_mul_r by lia. lia.
Qed.
Print Assumptions C14_length_field_wraps.

(* An unknown IE is written with the type it carries. *)
Theorem C14_unknown_framing : forall x, ie_marshal (IE_Unknown x) = framed (ie_t x) (ie_ins x) (ie_v x).
Proof. intros x. unfold ie_marshal, Unknown_marshal, marshal_ie, Unknown_value. apply tliv_framed. Qed.
Print Assumptions C14_unknown_framing.

(* A Trace Reference is never written with its own code: it is written as a Serving Network. *)
Theorem C14_trace_reference_refuted : forall x, exists i v,
  ie_marshal (IE_TraceReference x) = framed 83 i v /\ ~ has_code (IE_TraceReference x) 83 /\
  forall y, has_code (IE_ServingNetwork y) 83.
Proof.
  intros x. eexists. eexists. split; [|split].
  - unfold ie_marshal, TraceReference_marshal, marshal_ie. apply tliv_framed.
  - cbn. lia.
  - intros y. reflexivity.
Qed.
Print Assumptions C14_trace_reference_refuted.

Example C14_witness : ie_marshal (IE_Ebi (mkIe 73 1 2 5)) = framed 73 2 [5]
  /\ ie_marshal (IE_Apn (mkIe 71 8 0 [97; 46; 98; 99])) = framed 71 0 [1; 97; 2; 98; 99].
Proof. split; reflexivity. Qed.

(* ------------------------------------------------------------------------- *)
(* C16                                                                        *)

(* The decoder of the kind, applied to the encoding followed by anything, returns the IE. *)
Theorem C16_ie_roundtrip : forall m e rest, ie_wf e -> (forall i, e <> IE_Unknown i) ->
  own_decode e m (ie_marshal e ++ rest) = Ok e.
Proof. exact own_rt. Qed.
Print Assumptions C16_ie_roundtrip.

(* The same through the type dispatch of the list decoder, for the kinds it reaches. *)
Theorem C16_dispatched_roundtrip : forall m e rest, ie_wf e -> routed e ->
  decode_one (decoder m) m (ie_marshal e ++ rest) = Ok e.
Proof. exact decode_one_wf. Qed.
Print Assumptions C16_dispatched_roundtrip.

(* No two well-formed IEs of one kind, or reached by the dispatch, share an encoding. *)
Theorem C16_ie_encoding_injective : forall e e', ie_wf e -> ie_wf e' -> routed e -> routed e' ->
  ie_marshal e = ie_marshal e' -> e = e'.
Proof.
  intros e e' W W' R R' H. pose proof (decode_one_wf Debug e [] W R) as A. pose proof (decode_one_wf Debug e' [] W' R') as B.
  rewrite H in A. rewrite A in B. apply Ok_inj in B. exact B.
Qed.
Print Assumptions C16_ie_encoding_injective.

(* ... and none is a proper prefix of another: the encodings are self-delimiting. *)
Theorem C16_ie_encoding_prefix_free : forall e e' r r', ie_wf e -> ie_wf e' -> routed e -> routed e' ->
  ie_marshal e ++ r = ie_marshal e' ++ r' -> e = e' /\ r = r'.
Proof.
  intros e e' r r' W W' R R' H. pose proof (decode_one_wf Debug e r W R) as A. pose proof (decode_one_wf Debug e' r' W' R') as B.
  rewrite H in A. rewrite A in B. apply Ok_inj in B. subst e'. split; [reflexivity|]. exact (app_inv_head _ _ _ H).
Qed.
Print Assumptions C16_ie_encoding_prefix_free.

(* What the well-formedness conditions leave out does not come back. Each of these is a value the
   public fields can hold, encoded without complaint and decoded, by its own decoder, to something else. *)
Definition comes_back_as (e : ie) (r : res ie) : Prop := forall m, own_decode e m (ie_marshal e) = r.
Ltac back := intros [|]; vm_compute; reflexivity.

(* an APN with a character outside ASCII: U+00FC is written as two octets and read as two characters *)
Theorem C16_apn_not_ascii_refuted :
  comes_back_as (IE_Apn (mkIe 71 3 0 [252])) (Ok (IE_Apn (mkIe 71 3 0 [195; 188]))).
Proof. back. Qed.
(* an empty list of ECGIs comes back as no list *)
Theorem C16_ecgi_list_empty_refuted :
  comes_back_as (IE_EcgiList (mkIe 190 2 0 (Some []))) (Ok (IE_EcgiList (mkIe 190 2 0 None))).
Proof. back. Qed.
(* a metric above 100 comes back as 0 *)
Theorem C16_metric_refuted : comes_back_as (IE_Metric (mkIe 182 1 0 101)) (Ok (IE_Metric (mkIe 182 1 0 0))).
Proof. back. Qed.
(* a throttling factor above 100 comes back as 0 *)
Theorem C16_throttling_refuted :
  comes_back_as (IE_Throttling (mkIe 154 2 0 (mkThrottle 1 3 200))) (Ok (IE_Throttling (mkIe 154 2 0 (mkThrottle 1 3 0)))).
Proof. back. Qed.
(* only the first half of an IPv6 address of a remote UE comes back *)
Theorem C16_remote_ue_ip_refuted :
  comes_back_as (IE_RemoteUeIpInformation (mkIe 193 9 0 (Rip_V6 [32; 1; 13; 184; 0; 0; 0; 0; 0; 0; 0; 0; 0; 0; 0; 1])))
    (Ok (IE_RemoteUeIpInformation (mkIe 193 9 0 (Rip_V6 [32; 1; 13; 184; 0; 0; 0; 0; 0; 0; 0; 0; 0; 0; 0; 0])))).
Proof. back. Qed.
(* every list of header compression profiles comes back with a 0 in front *)
Theorem C16_header_compression_refuted :
  comes_back_as (IE_HeaderCompressionConfiguration (mkIe 196 4 0 (mkHdrCompr [2] 9)))
    (Ok (IE_HeaderCompressionConfiguration (mkIe 196 4 0 (mkHdrCompr [0; 2] 9)))).
Proof. back. Qed.
(* a time zone of -128 quarter hours comes back as 0 *)
Theorem C16_time_zone_refuted :
  comes_back_as (IE_UeTimeZone (mkIe 114 2 0 (mkUeTimeZone (-128) 1))) (Ok (IE_UeTimeZone (mkIe 114 2 0 (mkUeTimeZone 0 1)))).
Proof. back. Qed.
(* a circuit id without relay id is dropped *)
Theorem C16_twan_circuit_id_refuted :
  comes_back_as (IE_TwanId (mkIe 169 5 0 (mkTwanId [97] None None None None None (Some [7]))))
    (Ok (IE_TwanId (mkIe 169 5 0 (mkTwanId [97] None None None None None None)))).
Proof. back. Qed.
(* an IE with an empty value is refused *)
Theorem C16_empty_value_refuted :
  comes_back_as (IE_Pco (mkIe 78 0 0 [])) (Err (IEInvalidLength 78)).
Proof. back. Qed.
Print Assumptions C16_apn_not_ascii_refuted.
Print Assumptions C16_ecgi_list_empty_refuted.
Print Assumptions C16_metric_refuted.
Print Assumptions C16_throttling_refuted.
Print Assumptions C16_remote_ue_ip_refuted.
Print Assumptions C16_header_compression_refuted.
Print Assumptions C16_time_zone_refuted.
Print Assumptions C16_twan_circuit_id_refuted.
Print Assumptions C16_empty_value_refuted.

(* ------------------------------------------------------------------------- *)
(* C17                                                                        *)

Theorem C17_ie_length : forall m e, ie_wf e -> ie_len m e = Ok (length (ie_marshal e)).
Proof. exact ie_len_rt. Qed.
Print Assumptions C17_ie_length.

(* The kinds with a constant size report it whatever they hold: a MEI of 14 digits takes 11 octets. *)
Theorem C17_mei_refuted : exists x, (forall m, ie_len m (IE_Mei x) = Ok 12%nat) /\ length (ie_marshal (IE_Mei x)) = 11%nat.
Proof. exists (mkIe 75 7 0 (repeat 49 14)). split; reflexivity. Qed.
Print Assumptions C17_mei_refuted.
(* The others report what their length field says, also when the value has changed since. *)
Theorem C17_stale_length_refuted : exists x, (forall m, ie_len m (IE_Apn x) = Ok 4%nat) /\ length (ie_marshal (IE_Apn x)) = 6%nat.
Proof. exists (mkIe 71 0 0 [97]). split; [intros [|]; reflexivity|reflexivity]. Qed.
Print Assumptions C17_stale_length_refuted.

(* ------------------------------------------------------------------------- *)
(* C18                                                                        *)

Theorem C18_ie_list_roundtrip : forall m l, Forall (fun e => ie_wf e /\ routed e) l -> decoder m (encoder l) = Ok l.
Proof. exact decoder_list. Qed.
Print Assumptions C18_ie_list_roundtrip.

(* Two lists of well-formed IEs with one encoding are the same list. *)
Theorem C18_ie_list_injective : forall l l', Forall (fun e => ie_wf e /\ routed e) l -> Forall (fun e => ie_wf e /\ routed e) l' ->
  encoder l = encoder l' -> l = l'.
Proof. intros l l' H H' E. pose proof (decoder_list Debug l H) as A. rewrite E, (decoder_list Debug l' H') in A. apply Ok_inj in A. symmetry. exact A. Qed.
Print Assumptions C18_ie_list_injective.

(* A TWAN Identifier is read as an Action Indication, a Trace Reference as a Serving Network. *)
Theorem C18_twan_id_refuted : forall m, exists x l, TwanId_wf x /\ decoder m (encoder [IE_TwanId x]) = Ok l /\ l <> [IE_TwanId x].
Proof.
  intros m. exists (mkIe 169 3 0 (mkTwanId [97] None None None None None None)). eexists.
  split; [|split; [destruct m; vm_compute; reflexivity|discriminate]].
  repeat split; try (vm_compute; reflexivity); cbn; intros; try discriminate; repeat constructor; try lia.
Qed.
Print Assumptions C18_twan_id_refuted.
Theorem C18_trace_reference_refuted : forall m, exists x l, TraceReference_wf x /\ decoder m (encoder [IE_TraceReference x]) = l /\ l <> Ok [IE_TraceReference x].
Proof.
  intros m. exists (mkIe 83 6 0 (mkTraceRef t_plmn 7)). eexists. split; [|split; [reflexivity|]].
  - repeat split; cbn; try reflexivity; try discriminate; try lia.
  - destruct m; vm_compute; discriminate.
Qed.
Print Assumptions C18_trace_reference_refuted.

(* A bearer context, a PDN connection holding it, and plain IEs. *)
Definition t_ebi : Tliv N := mkIe 73 1 0 5.
Definition t_fteid : Tliv fteid := mkIe 87 9 0 (mkFteid 11 7 (Some [10; 0; 0; 1]) None).
Definition t_bearer : Tliv bearer_context :=
  mkIe 93 18 0 (mkBearerContext t_ebi None None [t_fteid] None None None None None None None None None None).
Definition t_pdn : Tliv pdn_connections :=
  mkIe 109 61 0 (mkPdnConnections (mkIe 71 5 0 [97; 46; 98; 99]) None None None None t_ebi t_fteid None [t_bearer]
     (mkIe 72 8 0 (mkAmbr 100 200)) None None None None None None None None None None [] None None None None).
Example C18_witness : Forall (fun e => ie_wf e /\ routed e) [IE_BearerContext t_bearer; IE_PdnConnections t_pdn; IE_Ebi t_ebi]
  /\ decoder Debug (encoder [IE_BearerContext t_bearer; IE_PdnConnections t_pdn; IE_Ebi t_ebi])
     = Ok [IE_BearerContext t_bearer; IE_PdnConnections t_pdn; IE_Ebi t_ebi].
Proof.
  split; [|vm_compute; reflexivity].
  repeat constructor; try (intros; discriminate); vm_compute; try reflexivity; try discriminate; repeat constructor.
Qed.

(* ------------------------------------------------------------------------- *)
(* C19                                                                        *)

(* In a debug build decoding always ends. In a release build it ends if no IE met on the way declares
   more than 65531 octets. *)
Theorem C19_decoding_terminates_partial : forall m b,
  (m = Debug \/ forall s, visits m b s -> declared s <= 65531) -> decoder m b <> Diverge.
Proof. exact decoder_halts. Qed.
Print Assumptions C19_decoding_terminates_partial.

(* Under the same condition every decoded IE moves the read position. *)
Theorem C19_progress_partial : forall m b e n, decode_one (decoder m) m b = Ok e -> ie_len m e = Ok n ->
  m = Debug \/ declared b <= 65531 -> (0 < n)%nat.
Proof.
  intros m b e n H L D. apply (ie_len_pos m e n); [|exact L]. destruct D as [D|D]; [left; exact D|right].
  destruct (decode_one_post (decoder m) m b e H) as [_ ->]. exact D.
Qed.
Print Assumptions C19_progress_partial.

(* Thirteen octets, an F-TEID that declares 65532 octets, keep a release build in the loop for ever: no
   number of rounds gets to the end. A debug build crashes on them. *)
Definition endless : list N := [87; 255; 252; 0; 128; 0; 0; 0; 1; 10; 0; 0; 1].
Theorem C19_release_refuted : decoder Release endless = Diverge /\
  forall rounds, ie_loop (decode_one (decoder Release) Release) Release rounds endless = Diverge.
Proof.
  assert (H : forall rounds, ie_loop (decode_one (decoder Release) Release) Release rounds endless = Diverge).
  { induction rounds as [|k IH]; [reflexivity|].
    assert (E : decode_one (decoder Release) Release endless = Ok (IE_Fteid (mkIe 87 65532 0 (mkFteid 0 1 (Some [10; 0; 0; 1]) None))))
      by (vm_compute; reflexivity).
    change (ie_loop (decode_one (decoder Release) Release) Release (S k) endless)
      with (bind (decode_one (decoder Release) Release endless) (fun e => bind (ie_len Release e)
        (fun n => bind (ie_loop (decode_one (decoder Release) Release) Release k (skipn n endless)) (fun r => Ok (e :: r))))).
    rewrite E, bindOk.
    assert (L : ie_len Release (IE_Fteid (mkIe 87 65532 0 (mkFteid 0 1 (Some [10; 0; 0; 1]) None))) = Ok 0%nat) by (vm_compute; reflexivity).
    rewrite L, bindOk. change (skipn 0 endless) with endless. rewrite IH. reflexivity. }
  split; [|exact H]. rewrite decoder_eq. apply H.
Qed.
Print Assumptions C19_release_refuted.

(* ------------------------------------------------------------------------- *)
(* C20                                                                        *)

(* Decoding returns a list or an error, provided the octets at every position where an IE is read
   satisfy [tame]. Missing: fourteen type codes that [tame] leaves out altogether (103 to 108, 129, 142, 159,
   162, 177, 192, 205, 206), for all of which there are octets that crash the decoder. *)
Theorem C20_decoding_returns_partial : forall m b, (forall s, visits m b s -> tame s) ->
  exists r, (decoder m b = Ok r \/ exists e, decoder m b = Err e /\ r = []).
Proof.
  intros m b H. pose proof (decoder_safe m b H) as R. unfold returns in R. destruct (decoder m b) as [l|e| |]; try contradiction.
  - exists l. left. reflexivity.
  - exists []. right. exists e. split; reflexivity.
Qed.
Print Assumptions C20_decoding_returns_partial.

(* The positions read while decoding a bearer context with an EBI and an APN, all of them tame. *)
Definition tame_octets : list N := [93; 0; 13; 0; 73; 0; 1; 0; 5; 71; 0; 4; 0; 3; 97; 98; 99].
Lemma visits_nil m s : ~ visits m [] s.
Proof.
  intros H. remember [] as b eqn:E. induction H as [b N0|b e n s D L H IH|b s G H IH].
  - contradiction.
  - apply IH. rewrite E. apply skipn_nil.
  - rewrite E in G. cbn in G. lia.
Qed.
Ltac next_visit H :=
  let D := fresh in let L := fresh in let G := fresh in
  inversion H as [? ? E1|? ? ? ? D L ?|? ? G ?]; subst; clear H;
  [|vm_compute in D; apply Ok_inj in D; subst; vm_compute in L; apply Ok_inj in L; subst
   |first [exfalso; vm_compute in G; intuition discriminate|clear G]].
Ltac is_tame := vm_compute; repeat split; intros; repeat split; try discriminate; intuition (try discriminate).
Example C20_witness : forall s, visits Debug tame_octets s -> tame s.
Proof.
  intros s H. unfold tame_octets in H.
  next_visit H.
  - is_tame.
  - match goal with H : visits _ _ _ |- _ => cbn [skipn] in H; apply visits_nil in H; contradiction end.
  - match goal with H : visits _ _ _ |- _ => vm_compute in H; rename H into H1 end. next_visit H1.
    + is_tame.
    + match goal with H : visits _ _ _ |- _ => vm_compute in H; rename H into H1 end. next_visit H1.
      * is_tame. exists [[97; 98; 99]]. reflexivity.
      * match goal with H : visits _ _ _ |- _ => cbn [skipn] in H; apply visits_nil in H; contradiction end.
Qed.
(* so the release build also terminates on them (C19) *)
Example C19_witness : forall s, visits Debug tame_octets s -> declared s <= 65531.
Proof. intros s H. apply C20_witness in H. apply H. Qed.

(* Octets that crash the decoder, in both build modes: one list for each kind of IE concerned. *)
Definition crashing : list (list N) :=
  let z := fun n : N => repeat 0 (N.to_nat n) in
  [ [71; 0; 1; 0; 5]; [77; 0; 5; 0]; [86; 0; 7; 0; 12] ++ z 6; [87; 0; 1; 0; 128]; [90; 0; 1; 0; 4]; [91; 0; 1; 0; 0];
    [103; 0; 16; 0] ++ z 16; [104; 0; 36; 0] ++ z 36; [105; 0; 16; 0] ++ z 16; [106; 0; 37; 0] ++ z 37;
    [107; 0; 42; 0] ++ z 42; [108; 0; 39; 0] ++ z 39;
    [129; 0; 10; 0] ++ z 8 ++ [1; 0];
    [136; 0; 1; 0; 1]; [142; 0; 4; 0; 0; 0; 0; 1]; [159; 0; 1; 0; 0]; [162; 0; 11; 0] ++ z 10 ++ [1]; [175; 0; 1; 0; 0];
    [177; 0; 1; 0; 0]; [184; 0; 2; 0; 1; 1]; [186; 0; 2; 0; 5; 1]; [192; 0; 2; 0; 0; 1]; [205; 0; 7; 0] ++ z 7;
    [206; 0; 1; 0; 0]; [212; 0; 1; 0; 0]; [215; 0; 1; 0; 1]; [254; 0; 1; 0; 0]; [255; 0; 1; 0; 0; 0; 0] ].
Theorem C20_crash_refuted : Forall (fun b => forall m, decoder m b = Panic) crashing.
Proof. repeat constructor; intros [|]; vm_compute; reflexivity. Qed.
Print Assumptions C20_crash_refuted.

(* In a debug build any IE with a checked length crashes when it declares 65532 octets or more. *)
Theorem C20_length_overflow_refuted : forall l rest, 252 <= l < 256 ->
  decoder Debug ([1; 255; l; 0; 0] ++ rest) = Panic.
Proof.
  intros l rest Hl. rewrite decoder_eq. set (b := [1; 255; l; 0; 0] ++ rest).
  replace (ie_loop (decode_one (decoder Debug) Debug) Debug (length b) b) with
    (bind (decode_one (decoder Debug) Debug b) (fun e => bind (ie_len Debug e) (fun n =>
      bind (ie_loop (decode_one (decoder Debug) Debug) Debug (pred (length b)) (skipn n b)) (fun r => Ok (e :: r))))) by reflexivity.
  rewrite disp_1 by reflexivity.
  assert (E : Imsi_unmarshal Debug b = Panic).
  { assert (C : l = 252 \/ l = 253 \/ l = 254 \/ l = 255) by lia. unfold b.
    destruct C as [C|[C|[C|C]]]; rewrite C; reflexivity. }
  rewrite E. reflexivity.
Qed.
Print Assumptions C20_length_overflow_refuted.

(* ------------------------------------------------------------------------- *)
(* C21                                                                        *)

(* Octets whose first is a type code of a kind are decoded by the decoder of that kind; an octet
   that is the code of no kind leads to the decoder of unknown IEs. *)
Theorem C21_dispatch : forall m e b, b <> [] -> nth 0 b 0 <> 169 -> has_code e (nth 0 b 0) ->
  decode_one (decoder m) m b = own_decode e m b.
Proof. exact dispatch_own. Qed.
Print Assumptions C21_dispatch.

(* What is decoded is of a kind that has the type code, with the length field as declared. *)
Theorem C21_decoded_kind : forall m b e, decode_one (decoder m) m b = Ok e -> nth 0 b 0 <> 169 ->
  has_code e (nth 0 b 0) /\ ie_lenfield e = declared b.
Proof. intros m b e H N169. destruct (decode_one_post (decoder m) m b e H) as [A B]. split; [apply A, N169|exact B]. Qed.
Print Assumptions C21_decoded_kind.

(* Code 169, the TWAN Identifier, leads to the decoder of Action Indication, whatever follows. *)
Theorem C21_twan_id_refuted : forall m b, b <> [] -> nth 0 b 0 = 169 ->
  (forall x, has_code (IE_TwanId x) 169) /\ (forall x, ~ has_code (IE_ActionIndication x) 169) /\
  forall e, decode_one (decoder m) m b = Ok e -> exists x, e = IE_ActionIndication x.
Proof.
  intros m b Hb H. split; [intros x; reflexivity|split; [intros x; cbn; lia|]]. intros e E.
  rewrite disp_169 in E by (apply at_nth; assumption). unfold lift in E. destruct (ActionIndication_unmarshal m b); cbn in E; try discriminate E.
  apply Ok_inj in E. subst. eexists. reflexivity.
Qed.
Print Assumptions C21_twan_id_refuted.

Example C21_witness : decode_one (decoder Debug) Debug [73; 0; 1; 0; 5; 99] = Ok (IE_Ebi t_ebi)
  /\ decode_one (decoder Debug) Debug [169; 0; 1; 0; 5] = Ok (IE_ActionIndication (mkIe 168 1 0 IndicationValues_Spare)).
Proof. split; reflexivity. Qed.

(* ------------------------------------------------------------------------- *)
(* C22                                                                        *)

Definition unassigned (t : N) : Prop := forall x, has_code (IE_Unknown x) t.

Lemma hdr4_framed {A} t i v r (k : N -> N -> res A) : nlen v < 65536 -> hdr4 (framed t i v ++ r) k = k (nlen v) i.
Proof. intros H. rewrite hdr4_eq by (unfold framed; cbn [app length]; lia). rewrite C14_length_field by exact H. reflexivity. Qed.

(* The contents and the instance octet of an unknown IE are kept; the type is not: it comes back as 0. *)
Theorem C22_unknown_contents_partial : forall m t i v rest, unassigned t -> v <> [] -> nlen v <= 65531 ->
  decode_one (decoder m) m (framed t i v ++ rest) = Ok (IE_Unknown (mkIe 0 (nlen v) i v)) /\
  ie_len m (IE_Unknown (mkIe 0 (nlen v) i v)) = Ok (length (framed t i v)).
Proof.
  intros m t i v rest Ht Hv Hn. split.
  - rewrite (dispatch_own m (IE_Unknown (mkIe 0 0 0 []))).
    + unfold own_decode, Unknown_unmarshal. replace (4 <=? length (framed t i v ++ rest))%nat with true by reflexivity.
      rewrite hdr4_framed by lia. destruct v as [|a v]; [contradiction Hv; reflexivity|].
      rewrite checked_ok; [|unfold nlen; cbn [length]; lia|lia|unfold framed, nlen; cbn [app length]; rewrite app_length; cbn [length]; lia].
      rewrite end16_ok by lia. rewrite bindOk. change (framed t i (a :: v) ++ rest) with ([t; (nlen (a :: v) / 256) mod 256; nlen (a :: v) mod 256; i] ++ (a :: v) ++ rest).
      unfold slice. rewrite app_length. cbn [length app skipn].
      destruct (Nat.leb_spec 4 (N.to_nat (nlen (a :: v) + 4))) as [_|C]; [|unfold nlen in C; lia].
      match goal with |- context [(?x <=? ?y)%nat] => destruct (Nat.leb_spec x y) as [_|C] end;
        [|unfold nlen in C; cbn [length] in C; rewrite app_length in C; lia].
      cbn [andb]. rewrite bindOk. unfold lift. rewrite bindOk. do 3 f_equal.
      replace (N.to_nat (nlen (a :: v) + 4) - 4)%nat with (length (a :: v) + 0)%nat by (unfold nlen; lia).
      change (a :: v ++ rest) with ((a :: v) ++ rest). rewrite firstn_app_2. cbn [firstn]. rewrite app_nil_r. reflexivity.
    + discriminate.
    + cbn [nth framed app]. intros C. specialize (Ht (mkIe 0 0 0 [])). cbn [has_code] in Ht. rewrite C in Ht. apply Ht. apply in_codes. reflexivity.
    + cbn [nth framed app]. apply Ht.
  - unfold ie_len, Unknown_len, len_usize. cbn [ie_length]. unfold framed, nlen. rewrite app_length. cbn [length]. f_equal. lia.
Qed.
Print Assumptions C22_unknown_contents_partial.

(* So re-encoding an unknown IE changes its type octet to 0, for every unassigned code but 0. *)
Theorem C22_unknown_type_refuted : forall m t i v rest, unassigned t -> t <> 0 -> v <> [] -> nlen v <= 65531 ->
  exists e, decode_one (decoder m) m (framed t i v ++ rest) = Ok e /\ ie_marshal e = framed 0 i v /\ ie_marshal e <> framed t i v.
Proof.
  intros m t i v rest Ht H0 Hv Hn. eexists. split; [apply C22_unknown_contents_partial; assumption|].
  rewrite C14_unknown_framing. cbn [ie_t ie_ins ie_v]. split; [reflexivity|]. unfold framed. cbn [app]. congruence.
Qed.
Print Assumptions C22_unknown_type_refuted.

Example C22_witness : unassigned 250 /\ decode_one (decoder Debug) Debug [250; 0; 2; 7; 1; 2] = Ok (IE_Unknown (mkIe 0 2 7 [1; 2])).
Proof. split; [intros x; cbn; lia|reflexivity]. Qed.

(* ------------------------------------------------------------------------- *)
(* C23                                                                        *)

Lemma ie_loop_more one m f : forall b l f', ie_loop one m f b = Ok l -> (f <= f')%nat -> ie_loop one m f' b = Ok l.
Proof.
  induction f as [|f IH]; intros [|x b] l f' H L; try (destruct f'; exact H); [discriminate H|].
  destruct f' as [|f']; [lia|]. cbn [ie_loop] in *. destruct (one (x :: b)) as [e| | |]; cbn [bind] in *; try discriminate H.
  destruct (ie_len m e) as [n| | |]; cbn [bind] in *; try discriminate H.
  destruct (ie_loop one m f (skipn n (x :: b))) as [r| | |] eqn:E; cbn [bind] in *; try discriminate H.
  rewrite (IH _ _ f' E) by lia. exact H.
Qed.
Lemma ie_loop_least one m f : forall b l, ie_loop one m f b = Ok l -> ie_loop one m (length b) b = Ok l.
Proof.
  induction f as [|f IH]; intros [|x b] l H; try exact H; [discriminate H|].
  pose proof H as H0. cbn [ie_loop] in H. destruct (one (x :: b)) as [e| | |] eqn:O; cbn [bind] in *; try discriminate H.
  destruct (ie_len m e) as [n| | |] eqn:L; cbn [bind] in *; try discriminate H.
  destruct (ie_loop one m f (skipn n (x :: b))) as [r| | |] eqn:E; cbn [bind] in *; try discriminate H.
  apply Ok_inj in H. subst l. destruct n as [|n].
  - cbn [skipn] in E. pose proof (ie_loop_more _ _ _ _ _ (S f) E ltac:(lia)) as E2. rewrite E2 in H0. apply Ok_inj in H0.
    exfalso. apply (f_equal (@length ie)) in H0. cbn in H0. lia.
  - cbn [length ie_loop]. rewrite O. cbn [bind]. rewrite L. cbn [bind]. apply IH in E.
    rewrite (ie_loop_more _ _ _ _ _ (length b) E); [reflexivity|]. rewrite skipn_length. cbn [length]. lia.
Qed.
(* What a successful decoding is made of: the IE at the head, and the decoding of what is left after
   as many octets as that IE reports. *)
Lemma decoder_cons m b e l : decoder m b = Ok (e :: l) ->
  exists n, decode_one (decoder m) m b = Ok e /\ ie_len m e = Ok n /\ decoder m (skipn n b) = Ok l.
Proof.
  rewrite decoder_eq. destruct b as [|x b]; [discriminate|]. cbn [length ie_loop]. intros H.
  destruct (decode_one (decoder m) m (x :: b)) as [e'| | |] eqn:O; cbn [bind] in *; try discriminate H.
  destruct (ie_len m e') as [n| | |] eqn:L; cbn [bind] in *; try discriminate H.
  destruct (ie_loop _ m (length b) (skipn n (x :: b))) as [r| | |] eqn:E; cbn [bind] in *; try discriminate H.
  apply Ok_inj in H. injection H as -> ->. exists n. split; [reflexivity|]. split; [exact L|]. rewrite decoder_eq. eapply ie_loop_least, E.
Qed.

(* For the kinds that size themselves by their length field, what follows is read right after the
   declared number of octets. *)
Theorem C23_declared_length_partial : forall m b e l, decoder m b = Ok (e :: l) -> sized_by_length e -> declared b <= 65531 ->
  decoder m (skipn (4 + N.to_nat (declared b)) b) = Ok l.
Proof.
  intros m b e l H S D. destruct (decoder_cons _ _ _ _ H) as (n & O & L & R).
  destruct (decode_one_post (decoder m) m b e O) as [_ F]. rewrite (ie_len_sized m e S) in L by (rewrite F; exact D).
  apply Ok_inj in L. rewrite F in L. rewrite L. exact R.
Qed.
Print Assumptions C23_declared_length_partial.

(* The kinds with a fixed size ignore the declared length. *)
Theorem C23_fixed_kinds_ignore_length : forall m b e l n, decoder m b = Ok (e :: l) -> fixed_size e = Some n ->
  decoder m (skipn n b) = Ok l.
Proof.
  intros m b e l n H F. destruct (decoder_cons _ _ _ _ H) as (k & O & L & R). rewrite (ie_len_fixed m e n F) in L. apply Ok_inj in L. subst. exact R.
Qed.
Print Assumptions C23_fixed_kinds_ignore_length.

(* A Recovery IE one octet longer than this release knows, followed by an EBI: the extra octet is taken for
   the type of the next IE, and the message is lost. *)
Theorem C23_extended_ie_refuted : forall m, decoder m ([3; 0; 2; 0; 7; 9] ++ [73; 0; 1; 0; 5]) = Err (IEInvalidLength 0)
  /\ decoder m ([3; 0; 1; 0; 7] ++ [73; 0; 1; 0; 5]) = Ok [IE_Recovery (mkIe 3 1 0 7); IE_Ebi t_ebi].
Proof. intros [|]; split; vm_compute; reflexivity. Qed.
Print Assumptions C23_extended_ie_refuted.

Example C23_witness : decoder Debug ([87; 0; 11; 0; 139; 0; 0; 0; 7; 10; 0; 0; 1; 99; 98] ++ [73; 0; 1; 0; 5])
  = Ok [IE_Fteid (mkIe 87 11 0 (ie_v t_fteid)); IE_Ebi t_ebi].
Proof. vm_compute; reflexivity. Qed.

(* ------------------------------------------------------------------------- *)
(* C24                                                                        *)

Theorem C24_bearer_context : forall m x rest, BearerContext_wf x -> BearerContext_unmarshal (decoder m) m (BearerContext_marshal x ++ rest) = Ok x.
Proof. intros m x rest W. pose proof (own_rt m (IE_BearerContext x) rest W ltac:(discriminate)) as H. cbn [own_decode] in H. unfold ie_marshal, lift in H. destruct (BearerContext_unmarshal _ _ _); cbn [bind] in H; try discriminate H. apply Ok_inj in H. injection H as ->. reflexivity. Qed.
Theorem C24_pdn_connections : forall m x rest, PdnConnections_wf x -> PdnConnections_unmarshal (decoder m) m (PdnConnections_marshal x ++ rest) = Ok x.
Proof. intros m x rest W. pose proof (own_rt m (IE_PdnConnections x) rest W ltac:(discriminate)) as H. cbn [own_decode] in H. unfold ie_marshal, lift in H. destruct (PdnConnections_unmarshal _ _ _); cbn [bind] in H; try discriminate H. apply Ok_inj in H. injection H as ->. reflexivity. Qed.
Theorem C24_load_control : forall m x rest, LoadControl_wf x -> LoadControl_unmarshal (decoder m) m (LoadControl_marshal x ++ rest) = Ok x.
Proof. intros m x rest W. pose proof (own_rt m (IE_LoadControlInfo x) rest W ltac:(discriminate)) as H. cbn [own_decode] in H. unfold ie_marshal, lift in H. destruct (LoadControl_unmarshal _ _ _); cbn [bind] in H; try discriminate H. apply Ok_inj in H. injection H as ->. reflexivity. Qed.
Theorem C24_overload_control : forall m x rest, OverloadControlInfo_wf x -> OverloadControlInfo_unmarshal (decoder m) m (OverloadControlInfo_marshal x ++ rest) = Ok x.
Proof. intros m x rest W. pose proof (own_rt m (IE_OverloadControlInfo x) rest W ltac:(discriminate)) as H. cbn [own_decode] in H. unfold ie_marshal, lift in H. destruct (OverloadControlInfo_unmarshal _ _ _); cbn [bind] in H; try discriminate H. apply Ok_inj in H. injection H as ->. reflexivity. Qed.
Theorem C24_remote_ue_context : forall m x rest, RemoteUeContext_wf x -> RemoteUeContext_unmarshal (decoder m) m (RemoteUeContext_marshal x ++ rest) = Ok x.
Proof. intros m x rest W. pose proof (own_rt m (IE_RemoteUeContext x) rest W ltac:(discriminate)) as H. cbn [own_decode] in H. unfold ie_marshal, lift in H. destruct (RemoteUeContext_unmarshal _ _ _); cbn [bind] in H; try discriminate H. apply Ok_inj in H. injection H as ->. reflexivity. Qed.
Theorem C24_scef_pdn_connections : forall m x rest, ScefPdnConnections_wf x -> ScefPdnConnections_unmarshal (decoder m) m (ScefPdnConnections_marshal x ++ rest) = Ok x.
Proof. intros m x rest W. pose proof (own_rt m (IE_ScefPdnConnections x) rest W ltac:(discriminate)) as H. cbn [own_decode] in H. unfold ie_marshal, lift in H. destruct (ScefPdnConnections_unmarshal _ _ _); cbn [bind] in H; try discriminate H. apply Ok_inj in H. injection H as ->. reflexivity. Qed.
Theorem C24_v2x_information : forall m x rest, V2xInformation_wf x -> V2xInformation_unmarshal (decoder m) m (V2xInformation_marshal x ++ rest) = Ok x.
Proof. intros m x rest W. pose proof (own_rt m (IE_V2xInformation x) rest W ltac:(discriminate)) as H. cbn [own_decode] in H. unfold ie_marshal, lift in H. destruct (V2xInformation_unmarshal _ _ _); cbn [bind] in H; try discriminate H. apply Ok_inj in H. injection H as ->. reflexivity. Qed.
Theorem C24_pc5_qos_parameters : forall m x rest, PC5QosParameters_wf x -> PC5QosParameters_unmarshal (decoder m) m (PC5QosParameters_marshal x ++ rest) = Ok x.
Proof. intros m x rest W. pose proof (own_rt m (IE_PC5QosParameters x) rest W ltac:(discriminate)) as H. cbn [own_decode] in H. unfold ie_marshal, lift in H. destruct (PC5QosParameters_unmarshal _ _ _); cbn [bind] in H; try discriminate H. apply Ok_inj in H. injection H as ->. reflexivity. Qed.
Theorem C24_pgw_change_info : forall m x rest, PgwChangeInfo_wf x -> PgwChangeInfo_unmarshal (decoder m) m (PgwChangeInfo_marshal x ++ rest) = Ok x.
Proof. intros m x rest W. pose proof (own_rt m (IE_PgwChangeInfo x) rest W ltac:(discriminate)) as H. cbn [own_decode] in H. unfold ie_marshal, lift in H. destruct (PgwChangeInfo_unmarshal _ _ _); cbn [bind] in H; try discriminate H. apply Ok_inj in H. injection H as ->. reflexivity. Qed.
Print Assumptions C24_bearer_context.
Print Assumptions C24_pdn_connections.
Print Assumptions C24_load_control.
Print Assumptions C24_overload_control.
Print Assumptions C24_remote_ue_context.
Print Assumptions C24_scef_pdn_connections.
Print Assumptions C24_v2x_information.
Print Assumptions C24_pc5_qos_parameters.
Print Assumptions C24_pgw_change_info.

(* Of a list of APNs in a Load Control Information only the last comes back. *)
Theorem C24_load_control_refuted : forall m,
  let a := fun c => mkIe 184 3 0 (mkApnRelCap 10 [c]) in
  let v := fun l => mkIe 181 19 0 (mkLoadControl (mkIe 183 4 0 1) (mkIe 182 1 0 2) (Some l)) in
  LoadControl_unmarshal (decoder m) m (LoadControl_marshal (mkIe 181 27 0 (ie_v (v [a 97; a 98])))) = Ok (mkIe 181 27 0 (ie_v (v [a 98]))).
Proof. intros [|]; vm_compute; reflexivity. Qed.
Print Assumptions C24_load_control_refuted.

(* The BSS container and the transaction identifier of a bearer context are never sent. *)
Theorem C24_bearer_context_refuted : forall x bss ti,
  let v := ie_v x in
  let y := mkIe (ie_t x) (ie_length x) (ie_ins x) (mkBearerContext (bc_ebi v) (bc_cause v) (bc_tft v) (bc_fteids v) (bc_qos v) (bc_charging v)
     (bc_flags v) (bc_pco v) (bc_apco v) (bc_epco v) (bc_loss v) (bc_ran v) bss ti) in
  BearerContext_marshal y = BearerContext_marshal x.
Proof. intros x bss ti. reflexivity. Qed.
Print Assumptions C24_bearer_context_refuted.

(* Nor are the PGW change info and the user plane security policy of a PDN connection. *)
Theorem C24_pdn_connections_refuted : forall x change policy,
  let v := ie_v x in
  let y := mkIe (ie_t x) (ie_length x) (ie_ins x) (mkPdnConnections (pn_apn v) (pn_restriction v) (pn_selection v) (pn_ipv4 v) (pn_ipv6 v)
     (pn_ebi v) (pn_pgw v) (pn_node_name v) (pn_bearers v) (pn_ambr v) (pn_charging v) (pn_reporting v) (pn_csg v) (pn_henb v)
     (pn_indication v) (pn_spi v) (pn_report_flags v) (pn_home v) (pn_praa v) (pn_wlan v) (pn_remotes v) (pn_pdn_type v)
     (pn_compr v) change policy) in
  PdnConnections_marshal y = PdnConnections_marshal x.
Proof. intros x change policy. reflexivity. Qed.
Print Assumptions C24_pdn_connections_refuted.

Example C24_witness : BearerContext_wf t_bearer /\ PdnConnections_wf t_pdn.
Proof. split; repeat constructor; try (intros; discriminate); vm_compute; try reflexivity; try discriminate; repeat constructor. Qed.

(* ------------------------------------------------------------------------- *)
(* C25                                                                        *)

(* Allowing more than 16384 levels of grouped IEs changes no result: no input needs more. *)
Theorem C25_nesting_bounded : forall m b d, 16384 <= N.of_nat d -> decode_ies d m b = decoder m b.
Proof.
  intros m b d H. rewrite (decode_ies_16384 m b d H). set (k := Nat.max d (S (length b))).
  rewrite <- (decode_ies_16384 m b k) by lia. apply decoder_deep. unfold k. lia.
Qed.
Print Assumptions C25_nesting_bounded.

(* The bound is reached: there is no check on the nesting, and a bearer context within a bearer context
   and so on needs one level of recursion for every four octets. *)
Fixpoint nested (n : nat) : list N := match n with O => [73; 0; 1; 0; 5] | S k => framed 93 0 (nested k) end.
Lemma nested_length n : length (nested n) = (5 + 4 * n)%nat.
Proof. induction n as [|n IH]; [reflexivity|]. cbn [nested]. unfold framed. rewrite app_length, IH. cbn [length]. lia. Qed.
Lemma nested_one dec m k : 5 + 4 * N.of_nat k <= 65531 ->
  decode_one dec m (nested (S k)) = let? l := dec (nested k) in Ok (IE_BearerContext (mkIe 93 (nlen (nested k)) 0 (BearerContext_from l))).
Proof.
  intros H. rewrite disp_93 by reflexivity. unfold BearerContext_unmarshal, GroupedIe_unmarshal.
  assert (L : nlen (nested k) = 5 + 4 * N.of_nat k) by (unfold nlen; rewrite nested_length; lia).
  change (nested (S k)) with (framed 93 0 (nested k)). replace (MIN_IE_SIZE <=? length (framed 93 0 (nested k)))%nat with true by reflexivity.
  change (at_ (framed 93 0 (nested k)) 0) with (Ok (E:=GTPV2Error) 93). rewrite bindOk.
  rewrite <- (app_nil_r (framed 93 0 (nested k))). rewrite hdr4_framed by lia. rewrite app_nil_r.
  rewrite checked_ok; [|lia|lia|unfold framed, nlen; rewrite app_length; cbn [length]; lia].
  rewrite end16_ok by lia. rewrite bindOk.
  assert (S : slice (E:=GTPV2Error) (framed 93 0 (nested k)) 4 (N.to_nat (nlen (nested k) + 4)) = Ok (nested k)).
  { unfold slice. destruct (Nat.leb_spec 4 (N.to_nat (nlen (nested k) + 4))); [|lia].
    destruct (Nat.leb_spec (N.to_nat (nlen (nested k) + 4)) (length (framed 93 0 (nested k)))) as [_|C]; [|unfold framed, nlen in C; rewrite app_length in C; cbn [length] in C; lia].
    cbn [andb]. unfold framed at 1. cbn [app skipn]. rewrite firstn_all2; [reflexivity|unfold nlen; lia]. }
  rewrite S, bindOk. unfold lift. destruct (dec (nested k)); reflexivity.
Qed.
Lemma nested_step d m k : 5 + 4 * N.of_nat k <= 65531 ->
  decode_ies (S d) m (nested (S k)) = let? l := decode_ies d m (nested k) in Ok [IE_BearerContext (mkIe 93 (nlen (nested k)) 0 (BearerContext_from l))].
Proof.
  intros H. cbn [decode_ies]. pose proof (nested_one (decode_ies d m) m k H) as O. pose proof (nested_length (S k)) as L.
  remember (nested (S k)) as b eqn:Eb. destruct b as [|x b]; [cbn in L; lia|]. cbn [length] in *. cbn [ie_loop]. rewrite O.
  destruct (decode_ies d m (nested k)) as [l| | |]; cbn [bind]; try reflexivity.
  unfold ie_len, BearerContext_len, len_usize. cbn [ie_length bind]. rewrite skipn_all2; [|cbn [length]; unfold nlen; rewrite nested_length; lia].
  destruct (length b); reflexivity.
Qed.
Lemma nested_deeper m n : forall d, (n < d)%nat -> N.of_nat n <= 16382 -> decode_ies d m (nested n) = decode_ies (S n) m (nested n).
Proof.
  induction n as [|n IH]; intros d D H; destruct d as [|d]; try lia.
  - destruct m; reflexivity.
  - rewrite !nested_step by lia. rewrite IH by lia. reflexivity.
Qed.
Theorem C25_nesting_reached : forall m n, N.of_nat n <= 16382 ->
  length (nested n) = (5 + 4 * n)%nat /\ decode_ies n m (nested n) = Diverge /\ exists l, decode_ies (S n) m (nested n) = Ok l /\ decoder m (nested n) = Ok l.
Proof.
  intros m n H. split; [apply nested_length|].
  assert (A : decode_ies n m (nested n) = Diverge /\ exists l, decode_ies (S n) m (nested n) = Ok l).
  { induction n as [|n IH].
    - split; [reflexivity|]. exists [IE_Ebi t_ebi]. destruct m; reflexivity.
    - destruct IH as (A & l & B); [lia|]. split; [rewrite nested_step, A by lia; reflexivity|].
      eexists. rewrite nested_step, B by lia. reflexivity. }
  destruct A as (A & l & B). split; [exact A|]. exists l. split; [exact B|]. rewrite <- B.
  unfold decoder. apply nested_deeper; [rewrite nested_length; lia|exact H].
Qed.
Print Assumptions C25_nesting_reached.
