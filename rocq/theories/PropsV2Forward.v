(* PropsV2Forward.v - C65: a GTPv2-C element or message that was received and is encoded again says the
   same to the next receiver. Which elements, and what "the same" is, is in V2ForwardSpec.v. *)
From Coq Require Import String.
From Verif Require Import Base BaseFacts V2ForwardSpec V2MsgReadSpec V2MsgLayouts V2Forward V2ForwardC V2ListFacts.
From Verif Require V2MsgReadFacts V2MsgThms PropsV2Ie PropsV2Msg PropsV2Read.
Local Open Scope N_scope.

(* ------------------------------------------------------------------------- *)
(* Elements *)

(* [again] corrects lengths and nothing else: the kind, the instance, the octets written are the same. *)
Theorem C65_same_element : forall e,
  kind_of (again e) = kind_of e /\ ie_instance (again e) = ie_instance e /\ ie_marshal (again e) = ie_marshal e.
Proof.
  intros e. split; [|split; [|apply marshal_of_again]].
  - destruct e; reflexivity.
  - destruct e as []; try reflexivity. match goal with x : MmContext |- _ => destruct x; reflexivity end.
Qed.
Print Assumptions C65_same_element.

Theorem C65_element_survives_partial : forall b l e m rest, bytes b -> decoder Debug b = Ok l -> In e l -> sendable e ->
  decode_one (decoder m) m (ie_marshal e ++ rest) = Ok (again e).
Proof.
  intros b l e m rest Hb Hd He Hs. apply decoder_iff in Hd; [|exact Hb].
  pose proof (proj1 (Forall_forall _ _) (proj1 says_kept _ _ Hd Hb) e He Hs) as [W R].
  rewrite <- marshal_of_again. exact (PropsV2Ie.C16_dispatched_roundtrip m _ rest W R).
Qed.
Print Assumptions C65_element_survives_partial.

(* An element whose lengths were those of its octets arrives as it is. *)
Theorem C65_element_unchanged_partial : forall b l e m rest, bytes b -> decoder Debug b = Ok l -> In e l -> sendable e -> again e = e ->
  decode_one (decoder m) m (ie_marshal e ++ rest) = Ok e.
Proof.
  intros b l e m rest Hb Hd He Hs Ha. rewrite <- Ha at 2. exact (C65_element_survives_partial b l e m rest Hb Hd He Hs).
Qed.
Print Assumptions C65_element_unchanged_partial.

(* ------------------------------------------------------------------------- *)
(* Sequences: received, sent on, and sent on any number of times after that. *)

Lemma all_kept b l : bytes b -> decoder Debug b = Ok l -> Forall sendable l -> Forall (fun e => ie_wf e /\ routed e) (map again l).
Proof.
  intros Hb Hd Hs. apply decoder_iff in Hd; [|exact Hb]. pose proof (proj1 says_kept _ _ Hd Hb) as K.
  apply Forall_map. rewrite Forall_forall in *. intros e He. exact (K e He (Hs e He)).
Qed.
Lemma encoder_again l : encoder (map again l) = encoder l.
Proof. unfold encoder. rewrite map_map. f_equal. apply map_ext, marshal_of_again. Qed.

Theorem C65_sequence_survives_partial : forall b l m, bytes b -> decoder Debug b = Ok l -> Forall sendable l ->
  decoder m (encoder l) = Ok (map again l).
Proof.
  intros b l m Hb Hd Hs. rewrite <- encoder_again. apply PropsV2Ie.C18_ie_list_roundtrip. eapply all_kept; eassumption.
Qed.
Print Assumptions C65_sequence_survives_partial.

Theorem C65_second_hop_partial : forall b l m, bytes b -> decoder Debug b = Ok l -> Forall sendable l ->
  decoder m (encoder (map again l)) = Ok (map again l).
Proof. intros b l m Hb Hd Hs. rewrite encoder_again. exact (C65_sequence_survives_partial b l m Hb Hd Hs). Qed.
Print Assumptions C65_second_hop_partial.

(* ------------------------------------------------------------------------- *)
(* Messages *)

Definition message_again (x : message) : message := mkMsg (with_length (msg_header x) (counted x)) (map (map again) (msg_fields x)).

Lemma belongs_again f e : belongs f e -> belongs f (again e).
Proof. unfold belongs. destruct (C65_same_element e) as (K & I & _). rewrite K, I. auto. Qed.
Lemma satisfies_again f c e : satisfies f c e -> satisfies f c (again e).
Proof. unfold satisfies. destruct (C65_same_element e) as (K & I & _). rewrite K, I. auto. Qed.
Lemma conforms_again L x : conforms L x -> conforms L (map (map again) x).
Proof.
  unfold conforms. intros H. induction H as [|f v L x Hv _ IH]; [constructor|]. cbn [map]. constructor; [|exact IH].
  destruct Hv as (B & A & R). split; [|split].
  - apply Forall_map. revert B. apply Forall_impl. intros e. apply belongs_again.
  - rewrite map_length. exact A.
  - intros c Hc. specialize (R c Hc). apply Exists_exists in R. destruct R as (e & I & S). apply Exists_exists. exists (again e).
    split; [apply in_map, I|apply satisfies_again, S].
Qed.
Lemma sublist_in {A} (P : A -> Prop) l s : sublist P l s -> forall x, In x s -> In x l.
Proof. induction 1 as [|y l s HP HS IH|y l s HP HS IH]; intros x I; [exact I| |right; auto]. destruct I as [<-|I]; [left|right]; auto. Qed.
Lemma field_in f l v e : field_holds f l v -> In e v -> In e l.
Proof.
  intros (s & S & ->) I. apply (sublist_in _ _ _ S). destruct (f_keep f); [| |exact I].
  - destruct s; [destruct I|]. destruct I as [<-|[]]. left. reflexivity.
  - apply in_rev. destruct (rev s); [destruct I|]. destruct I as [<-|[]]. left. reflexivity.
Qed.
Lemma fields_in name L l x v e : fields_say name L l x -> In v x -> In e v -> In e l \/ e = assumed_cause.
Proof.
  unfold fields_say. destruct (String.eqb name _).
  - destruct L as [|f L]; [contradiction|]. destruct x as [|w x]; [contradiction|]. intros [Hw Hx] [<-|Iv] Ie.
    + destruct Hw as [[Hw _]|[_ ->]]; [left; exact (field_in _ _ _ _ Hw Ie)|right]. destruct Ie as [<-|[]]. reflexivity.
    + left. clear Hw. induction Hx as [|g u L x Hu _ IH]; [destruct Iv|]. destruct Iv as [->|Iv]; [exact (field_in _ _ _ _ Hu Ie)|auto].
  - intros [_ Hx] Iv Ie. left. induction Hx as [|g u L x Hu _ IH]; [destruct Iv|]. destruct Iv as [->|Iv]; [exact (field_in _ _ _ _ Hu Ie)|auto].
Qed.
Lemma assumed_kept : kept assumed_cause.
Proof. intros _. split; [|exact I]. octet. Qed.
Lemma number_at_bytes b i n : bytes b -> number_at b i n < 256 ^ N.of_nat n.
Proof.
  intros B. unfold number_at. eapply N.lt_le_trans; [apply base256_bound, bytes_firstn, bytes_skipn, B|].
  apply N.pow_le_mono_r; [lia|]. unfold nlen. rewrite firstn_length. lia.
Qed.
Lemma header_fits b h : bytes b -> header_says b h ->
  h2_sqn h < 16777216 /\ (forall p, h2_prio h = Some p -> p < 16) /\ (forall t, h2_teid h = Some t -> t < 4294967296) /\ (h2_teid h = None -> h2_prio h = None).
Proof.
  intros B (_ & _ & _ & _ & H). destruct (bit_at _ 3).
  - destruct H as (_ & _ & Ht & Hs & Hp). rewrite Hs, Ht, Hp. split; [exact (number_at_bytes b 8 3 B)|]. split; [|split].
    + intros p Q. destruct (bit_at _ 2); [|discriminate]. injection Q as <-. pose proof (number_at_bytes b 11 1 B) as Z. cbn in Z.
      apply N.div_lt_upper_bound; lia.
    + intros t Q. injection Q as <-. exact (number_at_bytes b 4 4 B).
    + discriminate.
  - destruct H as (_ & _ & Ht & Hs & Hp). rewrite Hs, Ht, Hp. split; [exact (number_at_bytes b 4 3 B)|]. repeat split; discriminate.
Qed.
Lemma one_bearer d L b x : In (d, L) gtpv2_messages -> message_says (md_name d) (md_type d) L b x ->
  md_name d = "ModifyBearerCommand"%string -> (List.length (nth 1 (msg_fields x) []) <= 1)%nat.
Proof.
  intros H (_ & _ & M) N. rewrite N in M. cbn in M. destruct M as (s & l & _ & _ & F). unfold fields_say in F. cbn in F. destruct F as [_ F].
  assert (K : forallb (fun dl => negb (String.eqb (md_name (fst dl)) "ModifyBearerCommand") ||
    match snd dl with _ :: f :: _ => match f_keep f with KeepFirst => true | _ => false end | _ => false end) gtpv2_messages = true) by (vm_compute; reflexivity).
  rewrite forallb_forall in K. specialize (K _ H). cbn [fst snd] in K. rewrite N in K. cbn [String.eqb negb orb] in K.
  change (String.eqb "ModifyBearerCommand" "ModifyBearerCommand") with true in K. cbn [negb orb] in K.
  destruct L as [|f0 [|f L]]; try discriminate. inversion F as [|? v0 ? ? _ F' E1 E2]; subst. inversion F' as [|? v ? ? Hv _ E3 E4]; subst.
  destruct (f_keep f) eqn:Ek; try discriminate. destruct Hv as (t & _ & ->). rewrite Ek. cbn [nth]. destruct t; cbn; lia.
Qed.
Lemma tovec_again d x : tovec d (map (map again) x) = map again (tovec d x).
Proof.
  unfold tovec. rewrite concat_map, map_map. f_equal. apply map_ext. intros i. change (@nil ie) with (map again []) at 1. apply map_nth.
Qed.

(* The header has a TEID if and only if messages of its kind have one: see C26_no_teid_refuted. *)
Theorem C65_message_survives_partial : forall d L b x m rest, In (d, L) gtpv2_messages -> bytes b -> msg_unmarshal d Debug b = Ok x ->
  (h2_teid (msg_header x) = None <-> In (md_name d) without_teid) ->
  Forall (Forall sendable) (msg_fields x) -> counted x < 65536 ->
  msg_unmarshal d m (msg_marshal d x [] ++ rest) = Ok (message_again x).
Proof.
  intros d L b x m rest H B U T S C. pose proof (PropsV2Msg.C36_decoded_conforms d L Debug b x H U) as Cf.
  apply (V2MsgReadFacts.message_says_iff d L b x H B) in U.
  pose proof (one_bearer d L b x H U) as O. destruct U as (Hh & Ht & Hm). destruct (header_fits _ _ B Hh) as (H1 & H2 & H3 & H4).
  assert (W : Forall (Forall (fun e => ie_wf e /\ routed e)) (map (map again) (msg_fields x))).
  { apply Forall_map, Forall_forall. intros v Iv. apply Forall_map, Forall_forall. intros e Ie.
    assert (Se : sendable e) by (rewrite Forall_forall in S; specialize (S v Iv); rewrite Forall_forall in S; exact (S e Ie)).
    destruct (String.eqb (md_name d) "VersionNotSupported"); [rewrite Hm in Iv; destruct Iv|].
    destruct Hm as (s & l & Ho & Hl & Hf). destruct (fields_in _ _ _ _ _ _ Hf Iv Ie) as [I| ->]; [|exact (assumed_kept Se)].
    assert (Bs : bytes s).
    { destruct Ho as (p & q & -> & _). unfold bytes in *. apply Forall_app in B. destruct B as [_ B]. apply Forall_app in B. apply B. }
    exact (proj1 (Forall_forall _ _) (proj1 says_kept _ _ Hl Bs) e I Se). }
  set (y := mkMsg (msg_header x) (map (map again) (msg_fields x))).
  assert (E : msg_marshal d y [] = msg_marshal d x []).
  { unfold msg_marshal, y. cbn [msg_header msg_fields]. rewrite tovec_again, encoder_again. reflexivity. }
  assert (Cy : counted y = counted x).
  { unfold counted, y. cbn [msg_header msg_fields]. rewrite <- concat_map. fold (encoder (map again (concat (msg_fields x)))).
    rewrite encoder_again. reflexivity. }
  rewrite <- E. rewrite (PropsV2Msg.C26_round_trip_partial d L y m rest H); [unfold message_again; rewrite Cy; reflexivity| | |rewrite Cy; exact C].
  - unfold well_formed, y. cbn [msg_header msg_fields]. exact (conj Ht (conj H1 (conj H2 (conj H3 (conj T (conj H4 (conj (conforms_again _ _ Cf) W))))))).
  - intros N. unfold y. cbn [msg_fields]. change (@nil ie) with (map again []). rewrite map_nth, map_length. exact (O N).
Qed.
Print Assumptions C65_message_survives_partial.

(* ------------------------------------------------------------------------- *)
(* Cases that meet the hypotheses *)

Ltac ready := match goal with |- sendable _ => unfold sendable, fit_for | _ => idtac end;
  repeat match goal with |- _ /\ _ => apply conj end; vm_compute; try exact I; try reflexivity; try discriminate; repeat constructor; try discriminate.

(* a recovery counter announced with a wrong length, and a bearer context with an EBI, an F-TEID and a QoS *)
Definition relay1 : list N :=
  [3; 0; 6; 0; 9; 93; 0; 44; 0; 73; 0; 1; 0; 5; 87; 0; 9; 2; 128; 0; 0; 0; 1; 10; 0; 0; 1] ++
  [80; 0; 22; 0; 105; 8] ++ repeat 0 20 ++ [95; 0; 2; 0; 8; 0].
Example C65_sequence_case : bytes relay1 /\ exists l, decoder Debug relay1 = Ok l /\ Forall sendable l /\ map again l <> l /\ List.length l = 3%nat /\
  decoder Release (encoder l) = Ok (map again l).
Proof.
  assert (B : bytes relay1) by (repeat constructor).
  split; [exact B|]. eexists. split; [vm_compute; reflexivity|].
  match goal with |- Forall sendable ?l /\ _ => assert (F : Forall sendable l) end.
  { repeat constructor; ready. }
  split; [exact F|]. split; [vm_compute; discriminate|]. split; [reflexivity|]. apply (C65_sequence_survives_partial relay1); [exact B|vm_compute; reflexivity|exact F].
Qed.
(* a Delete Session Request with a priority, and an octet after the message *)
Definition relay2 : list N := [76; 36; 0; 13; 0; 0; 0; 7; 0; 1; 2; 80; 73; 0; 1; 0; 5; 77].
Example C65_message_case : bytes relay2 /\ exists x, msg_unmarshal md_deletesessionreq Debug relay2 = Ok x /\
  (h2_teid (msg_header x) = None <-> In (md_name md_deletesessionreq) without_teid) /\ Forall (Forall sendable) (msg_fields x) /\
  concat (msg_fields x) <> [] /\ counted x < 65536.
Proof.
  split; [repeat constructor|]. eexists. split; [vm_compute; reflexivity|]. split; [|split; [|split]].
  - split; [discriminate|]. intros H. exfalso. cbn in H. repeat (destruct H as [H|H]; [discriminate H|]). exact H.
  - cbn. repeat constructor; ready.
  - vm_compute. discriminate.
  - vm_compute. reflexivity.
Qed.

(* ------------------------------------------------------------------------- *)
(* Elements that do not survive. Each is accepted, and encoded without complaint. *)

(* the octets are accepted; what is sent on is refused, or read as something else *)
Definition lost (o : list N) : Prop := forall m, exists l, decoder m o = Ok l /\ decoder m (encoder l) <> Ok (map again l).
(* ... or stops the next receiver *)
Definition stops (o : list N) : Prop := forall m, exists l, decoder m o = Ok l /\ decoder m (encoder l) = Panic.
Ltac lose := intros []; eexists; (split; [vm_compute; reflexivity|vm_compute; try discriminate; try reflexivity]).

(* an APN, an APN with a capacity, a node name that is not ASCII *)
Theorem C65_names_refuted : lost [71; 0; 2; 0; 1; 200] /\ lost [184; 0; 4; 0; 10; 2; 1; 200] /\ lost [176; 0; 4; 0; 1; 200; 1; 65].
Proof. split; [lose|]. split; lose. Qed.
(* identities without a digit *)
Theorem C65_no_digits_refuted : lost [1; 0; 1; 0; 255] /\ lost [75; 0; 8; 0; 255; 255; 255; 255; 255; 255; 255; 255].
Proof. split; lose. Qed.
(* a CSG identity of more than 27 bits *)
Theorem C65_csg_identity_refuted : lost [145; 0; 8; 0; 0; 241; 16; 255; 255; 255; 255; 0].
Proof. lose. Qed.
(* a trace reference is sent with the type of a serving network *)
Theorem C65_trace_reference_refuted : lost [115; 0; 6; 0; 0; 241; 16; 0; 0; 7].
Proof. lose. Qed.
(* a presence reporting area without further areas *)
Theorem C65_presence_area_refuted : lost [178; 0; 8; 0; 0; 0; 1; 0; 0; 0; 0; 0].
Proof. lose. Qed.
(* a bearer context with a transaction identifier *)
Theorem C65_bearer_transaction_refuted : lost [93; 0; 10; 0; 73; 0; 1; 0; 5; 137; 0; 1; 0; 7].
Proof. lose. Qed.
(* groups in which no member is of a kind they hold *)
Theorem C65_no_member_refuted : lost [214; 0; 5; 0; 73; 0; 1; 0; 5] /\ lost [208; 0; 5; 0; 73; 0; 1; 0; 5].
Proof. split; lose. Qed.
(* An MM context without capabilities, and an additional MM context for SRVCC without classmarks, are
   accepted by this receiver, and what it sends on stops the next one. *)
Theorem C65_stopping_refuted : stops (103 :: 0 :: 20 :: 0 :: repeat 0 20) /\ stops (107 :: 0 :: 60 :: 0 :: repeat 0 60) /\
  stops (159 :: 0 :: 7 :: 0 :: repeat 0 7).
Proof. split; [lose|]. split; lose. Qed.
(* An element of a type this library does not know is kept, but its type is not: it is sent with type 0. *)
Theorem C65_unknown_type_refuted : forall m t v, ~ In t (map fst catalogue) -> t < 256 -> v <> [] -> nlen v <= 65531 -> bytes v ->
  exists e, decoder m (t :: nlen v / 256 :: nlen v mod 256 :: 0 :: v) = Ok [e] /\
    ie_marshal e = 0 :: nlen v / 256 :: nlen v mod 256 :: 0 :: v.
Proof.
  intros m t v Ht Hb Hv Hl B. exists (IE_Unknown (mkIe 0 (nlen v) 0 v)).
  assert (Dm : 256 * (nlen v / 256) + nlen v mod 256 = nlen v) by (symmetry; apply N.div_mod; lia).
  assert (F : fits (nlen v) v = true).
  { unfold fits. rewrite !andb_true_iff, !N.leb_le. unfold nlen in *. destruct v; [contradiction|]. cbn [List.length] in *. lia. }
  split.
  - apply PropsV2Read.C64_sequence_reading_any_build.
    + repeat apply Forall_cons; try assumption; unfold byte; [apply N.div_lt_upper_bound; lia|apply N.mod_lt; lia|lia].
    + eapply say_more; [eapply head_plain with (x := Declared) (r := fun s => option_map IE_Unknown (Unknown_reads s))| ].
      * unfold kind_of_code. destruct (find _ catalogue) as [p|] eqn:E; [|reflexivity]. apply find_some in E. destruct E as [I E].
        apply N.eqb_eq in E. destruct Ht. rewrite <- E. apply in_map, I.
      * unfold Unknown_reads, checked_, element. rewrite Dm, F. unfold take. replace (N.to_nat (nlen v)) with (List.length v) by (unfold nlen; lia).
        rewrite Nat.leb_refl, firstn_all. reflexivity.
      * reflexivity.
      * unfold V2ListSpec.declared. cbn [nth]. rewrite Dm. replace (N.to_nat (nlen v)) with (List.length v) by (unfold nlen; lia).
        cbn [Nat.add skipn]. rewrite skipn_all. constructor.
  - transitivity (tliv 0 (nlen v) 0 v); [reflexivity|]. rewrite V2BaseFacts.tliv_eq, (N.mod_small (nlen v)) by lia.
    rewrite (N.mod_small (nlen v / 256)) by (apply N.div_lt_upper_bound; lia). reflexivity.
Qed.
Print Assumptions C65_names_refuted.
Print Assumptions C65_no_digits_refuted.
Print Assumptions C65_csg_identity_refuted.
Print Assumptions C65_trace_reference_refuted.
Print Assumptions C65_presence_area_refuted.
Print Assumptions C65_bearer_transaction_refuted.
Print Assumptions C65_no_member_refuted.
Print Assumptions C65_stopping_refuted.
Print Assumptions C65_unknown_type_refuted.
