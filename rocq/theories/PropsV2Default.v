(* PropsV2Default.v - C69: the fields a sender leaves at their default. A GTPv2-C message or element is built
   as [X { field: value, ..X::default() }]; what does the receiver get for the fields not given? *)
From Coq Require Import String.
From Verif Require Import Base.
From Verif Require Import V2Defaults V2ForwardSpec V2WireSpec V2BaseFacts V2MsgWire V2MsgThms.
From Verif Require V2ForwardC PropsV2Ie PropsV2Msg PropsV2Forward.
Local Open Scope N_scope.
Notation length := List.length.

(* ------------------------------------------------------------------------- *)
(* The small specification *)

(* The kinds of element whose default() cannot be sent as it is: it has no content and its decoder wants some
   (Imsi ... Unknown), or the receiver takes it for another kind (TraceReference, TwanId). *)
Definition must_be_filled : list kind :=
  [K_Imsi; K_Pco; K_BearerTft; K_TrafficAggregateDescription; K_TraceInformation; K_MmContext; K_TraceReference;
   K_SrcRncPdcpCtxInfo; K_Ldn; K_AdditionalMmContextForSrvcc; K_Apco; K_TwanId; K_PresenceReportingAreaInformation;
   K_IntegerNumber; K_Epco; K_V2xInformation; K_PC5QosParameters; K_PgwChangeInfo; K_GroupId; K_AlternativeImsi;
   K_PrivateExtension; K_Unknown].

(* The field of a message that must be given; every other field may be left at its default. *)
Definition must_be_given : list (string * string) := [
  ("CreateBearerRequest", "bearer_ctxs"); ("CreateBearerResponse", "bearer_ctxs");
  ("CreateForwardingTunnelRequest", "s103_pdf"); ("CreateIndirectDataForwardingTunnelRequest", "bearer_ctxs");
  ("CreateIndirectDataForwardingTunnelResponse", "bearer_ctxs"); ("CreateSessionRequest", "bearer_ctxs");
  ("CreateSessionResponse", "bearer_ctxs"); ("CsPagingIndication", "imsi"); ("DeleteBearerCommand", "bearer_ctxs");
  ("DeleteBearerFailureInd", "bearer_ctxs"); ("ForwardRelocationRequest", "mmctx"); ("ModifyBearerCommand", "bearer_ctxs");
  ("PgwDownlinkTriggeringNotification", "imsi"); ("PgwRestartNotification", "sgw_addr_control");
  ("ResumeNotification", "imsi"); ("TraceSessionActivation", "trace_info"); ("TraceSessionDeactivation", "trace_info");
  ("UeRegistrationQueryRequest", "imsi"); ("UeRegistrationQueryResponse", "imsi"); ("UpdateBearerRequest", "bearer_ctxs");
  ("UpdateBearerResponse", "bearer_ctxs")]%string.

(* An element fit to be sent, but for its length fields, which a sender does not have to know. *)
Definition fit (e : ie) : Prop := ie_wf (again e) /\ routed e.

(* Gtpv2Header { teid, sqn, message_prio, ..M::default().header }: the TEID is given where there is one *)
Definition given_header (d : message_def) (teid sqn : N) (prio : option N) : Gtpv2Header :=
  let h := message_header_default d in
  mkHdr2 (h2_msgtype h) (h2_piggyback h) prio (h2_length h) (option_map (fun _ => teid) (h2_teid h)) sqn.

(* A field of the message: given, with elements that belong there, or not given *)
Definition given_or_default (d : message_def) (f : field_spec) (v : list ie) : Prop :=
  (holds f v /\ Forall fit v) \/ (v = field_default f /\ ~ In (md_name d, f_name f) must_be_given).

(* ------------------------------------------------------------------------- *)
(* Elements *)

(* default() is of its own kind, carries its own type code and has instance 0. *)
Theorem C69_default_code : forall k, k <> K_TraceReference -> k <> K_Unknown ->
  kind_of (default_of k) = k /\ has_code (default_of k) (type_field (default_of k)) /\ ie_instance (default_of k) = 0.
Proof. intros k. destruct k; intros H H'; try contradiction; repeat split; try reflexivity; vm_compute; try tauto. Qed.
Print Assumptions C69_default_code.

Theorem C69_trace_reference_refuted : type_field (default_of K_TraceReference) = 83 /\ ~ has_code (default_of K_TraceReference) 83.
Proof. split; [reflexivity|]. vm_compute. discriminate. Qed.
Print Assumptions C69_trace_reference_refuted.

(* An element is received as it was built, with the lengths filled in, whatever lengths it was built with:
   the length that default() puts there need not be right. *)
Theorem C69_element_built : forall e m rest, fit e -> decode_one (decoder m) m (ie_marshal e ++ rest) = Ok (again e).
Proof.
  intros e m rest [W R]. rewrite <- V2ForwardC.marshal_of_again. apply PropsV2Ie.C16_dispatched_roundtrip; [exact W|].
  destruct e; try exact R.
Qed.
Print Assumptions C69_element_built.

(* The default elements themselves: these arrive ... *)
Ltac leaf := match goal with |- (_ <= _)%nat => apply Nat.leb_le; vm_compute; reflexivity | |- (_ < _)%nat => apply Nat.ltb_lt; vm_compute; reflexivity
  | |- _ < _ => vm_compute; reflexivity | |- _ <= _ => vm_compute; discriminate | |- _ = _ => vm_compute; reflexivity | |- True => exact I end.
Ltac lists := match goal with
  | |- Forall ?P ?l => let l' := eval vm_compute in l in progress change (Forall P l')
  | |- Sorted.StronglySorted ?P ?l => let l' := eval vm_compute in l in change (Sorted.StronglySorted P l'); repeat constructor
  | |- _ -> False => vm_compute; discriminate
  | |- _ -> _ => vm_compute; intros; discriminate
  | |- _ < _ \/ _ => left; vm_compute; reflexivity
  | |- None = None \/ _ => left; reflexivity
  | |- lc_list _ = None \/ _ => left; reflexivity
  | |- oc_list _ = None \/ _ => left; reflexivity
  | |- exists keep, hc_profiles _ = 0 :: filter keep _ => exists (fun _ => false); reflexivity
  | |- _ <> _ => vm_compute; discriminate
  | |- match ?o with Some _ => _ | None => _ end => let o' := eval vm_compute in o in progress change o with o'; cbv iota
  | |- match ?o with [] => _ | _ :: _ => _ end => let o' := eval vm_compute in o in progress change o with o'; cbv iota
  end.
Ltac parts := repeat first [leaf | match goal with |- _ /\ _ => apply conj | |- Forall _ [] => apply Forall_nil | |- Forall _ (_ :: _) => apply Forall_cons end | lists | progress hnf].
(* well formed in the sense of C16 but for three that have contents no sender would give them *)
Definition odd : list kind := [K_Mei; K_TargetIdentification; K_SourceIdentification].
Lemma default_fit k : ~ In k must_be_filled -> ~ In k odd -> fit (default_of k).
Proof.
  destruct k; intros H H'; try (exfalso; apply H; vm_compute; tauto); try (exfalso; apply H'; vm_compute; tauto); clear H H';
  (split; [parts|exact I]).
Qed.
Theorem C69_default_arrives : forall k m rest, ~ In k must_be_filled ->
  decode_one (decoder m) m (ie_marshal (default_of k) ++ rest) = Ok (again (default_of k)).
Proof.
  intros k m rest H.
  assert (D : {In k odd} + {~ In k odd}) by (apply in_dec; intros a b; destruct (kind_eqb a b) eqn:E; [left; apply kind_eqb_eq, E|right; intros Q; apply kind_eqb_eq in Q; rewrite Q in E; discriminate]).
  destruct D as [D|D]; [|exact (C69_element_built _ m rest (default_fit k H D))].
  unfold odd in D. cbn [In] in D. repeat (destruct D as [<-|D]; [destruct m; vm_compute; reflexivity|]). destruct D.
Qed.
Print Assumptions C69_default_arrives.

(* ... and these do not. *)
Theorem C69_default_lost_refuted : forall k m, In k must_be_filled ->
  decode_one (decoder m) m (ie_marshal (default_of k)) <> Ok (again (default_of k)).
Proof.
  intros k m H. unfold must_be_filled in H. cbn [In] in H.
  repeat (destruct H as [<-|H]; [destruct m; vm_compute; discriminate|]). destruct H.
Qed.
Print Assumptions C69_default_lost_refuted.

(* Two of them bring the receiver down. *)
Theorem C69_default_crashes_refuted : forall m,
  decode_one (decoder m) m (ie_marshal (default_of K_MmContext)) = Panic /\
  decode_one (decoder m) m (ie_marshal (default_of K_AdditionalMmContextForSrvcc)) = Panic.
Proof. intros m. destruct m; split; vm_compute; reflexivity. Qed.
Print Assumptions C69_default_crashes_refuted.

(* ------------------------------------------------------------------------- *)
(* Messages *)

(* The header in a message's default() has the type its own decoder asks for (C34 says which of these are not
   the standard's), and a TEID if and only if the message kind has one. *)
Theorem C69_default_header : forall d L, In (d, L) gtpv2_messages ->
  h2_msgtype (msg_header (message_default d L)) = md_type d /\ (h2_teid (msg_header (message_default d L)) = None <-> In (md_name d) without_teid).
Proof.
  intros d L H. split; [reflexivity|].
  cbn [message_default msg_header message_header_default h2_teid]. rewrite <- PropsV2Msg.in_eqb. unfold without_teid.
  destruct (existsb _ _); split; try reflexivity; discriminate.
Qed.
Print Assumptions C69_default_header.

Definition may_be_left (d : message_def) (f : field_spec) : bool :=
  existsb (fun p => String.eqb (md_name d) (fst p) && String.eqb (f_name f) (snd p)) must_be_given ||
  match f_arity f with
  | One => existsb (fun c => ins_test c 0) (f_ins f) && match f_req f with Some c => ins_test c 0 | None => true end &&
           negb (existsb (kind_eqb (f_kind f)) (must_be_filled ++ odd))
  | _ => match f_req f with Some _ => false | None => true end
  end.
Lemma all_may_be_left : forallb (fun p => forallb (may_be_left (fst p)) (snd p)) gtpv2_messages = true.
Proof. vm_compute. reflexivity. Qed.

(* A field that need not be given: its default is what belongs there. *)
Lemma ins_test_in c n : ins_test c n = true -> inst_in c n.
Proof. destruct c; cbn; intros H; [apply N.eqb_eq, H|apply N.ltb_lt, H|exact I]. Qed.
Lemma default_kind k : kind_of (default_of k) = k. Proof. destruct k; reflexivity. Qed.
Lemma default_instance k : ie_instance (default_of k) = 0. Proof. destruct k; reflexivity. Qed.
Lemma not_in_kinds k l : existsb (kind_eqb k) l = false -> ~ In k l.
Proof.
  intros H I. assert (X : existsb (kind_eqb k) l = true); [|rewrite X in H; discriminate].
  apply existsb_exists. exists k. split; [exact I|]. apply kind_eqb_eq. reflexivity.
Qed.
Theorem C69_field_left : forall d L f, In (d, L) gtpv2_messages -> In f L -> ~ In (md_name d, f_name f) must_be_given ->
  holds f (field_default f) /\ Forall fit (field_default f).
Proof.
  intros d L f H F N. pose proof all_may_be_left as A. rewrite forallb_forall in A. specialize (A _ H). cbn [fst snd] in A.
  rewrite forallb_forall in A. specialize (A _ F). unfold may_be_left in A. apply orb_true_iff in A. destruct A as [A|A].
  - exfalso. apply N. apply existsb_exists in A. destruct A as [[a b] [I E]]. cbn [fst snd] in E. apply andb_true_iff in E. destruct E as [E1 E2].
    apply String.eqb_eq in E1. apply String.eqb_eq in E2. rewrite E1, E2. exact I.
  - unfold holds, field_default. destruct (f_arity f) eqn:Ea.
    + apply andb_true_iff in A. destruct A as [A A3]. apply andb_true_iff in A. destruct A as [A1 A2].
      apply negb_true_iff in A3. apply not_in_kinds in A3.
      assert (F1 : ~ In (f_kind f) must_be_filled) by (intros Q; apply A3, in_or_app; left; exact Q).
      assert (F2 : ~ In (f_kind f) odd) by (intros Q; apply A3, in_or_app; right; exact Q).
      split; [|constructor; [exact (default_fit _ F1 F2)|constructor]].
      split; [|split; [reflexivity|]].
      * constructor; [|constructor]. split; [apply default_kind|]. apply existsb_exists in A1. destruct A1 as [c [I T]]. exists c. split; [exact I|].
        rewrite default_instance. apply ins_test_in, T.
      * intros c Ec. rewrite Ec in A2. constructor. split; [apply default_kind|]. rewrite default_instance. apply ins_test_in, A2.
    + split; [|constructor]. split; [constructor|split; [cbn; lia|]]. intros c Ec. rewrite Ec in A. discriminate.
    + split; [|constructor]. split; [constructor|split; [exact I|]]. intros c Ec. rewrite Ec in A. discriminate.
Qed.
Print Assumptions C69_field_left.

Lemma Forall2_in {A B} (P Q : A -> B -> Prop) L x : (forall f v, In f L -> P f v -> Q f v) -> Forall2 P L x -> Forall2 Q L x.
Proof.
  intros H F. induction F as [|f v L x Hv _ IH]; constructor; [apply H; [left; reflexivity|exact Hv]|].
  apply IH. intros g u I. apply H. right. exact I.
Qed.
Lemma Forall2_defaults (P : field_spec -> list ie -> Prop) L : (forall f, In f L -> P f (field_default f)) -> Forall2 P L (map field_default L).
Proof.
  induction L as [|f L IH]; intros H; constructor; [apply H; left; reflexivity|]. apply IH. intros g I. apply H. right. exact I.
Qed.
Lemma default_sizes : forallb (fun p => counted (message_default (fst p) (snd p)) <? 65536) gtpv2_messages = true.
Proof. vm_compute. reflexivity. Qed.

(* A message built from its default() with any of its fields given - the ones that must be among them -
   arrives with the fields that were given and the defaults of the others, lengths filled in. *)
Theorem C69_message_built_partial : forall d L teid sqn prio x m rest, In (d, L) gtpv2_messages ->
  teid < 4294967296 -> sqn < 16777216 -> (forall p, prio = Some p -> p < 16 /\ ~ In (md_name d) without_teid) ->
  Forall2 (given_or_default d) L x ->
  (md_name d = "ModifyBearerCommand"%string -> (length (nth 1 x []) <= 1)%nat) ->
  let msg := mkMsg (given_header d teid sqn prio) x in
  counted msg < 65536 ->
  msg_unmarshal d m (msg_marshal d msg [] ++ rest) =
    Ok (mkMsg (with_length (given_header d teid sqn prio) (counted msg)) (map (map again) x)).
Proof.
  intros d L teid sqn prio x m rest H Ht Hs Hp G B msg C.
  assert (K : Forall2 (fun f v => holds f v /\ Forall fit v) L x).
  { refine (Forall2_in _ _ _ _ _ G). intros f v I [Hv|[-> N]]; [exact Hv|exact (C69_field_left d L f H I N)]. }
  set (y := mkMsg (given_header d teid sqn prio) (map (map again) x)).
  assert (E : msg_marshal d y [] = msg_marshal d msg []).
  { unfold msg_marshal, y, msg. cbn [msg_header msg_fields]. rewrite PropsV2Forward.tovec_again, PropsV2Forward.encoder_again. reflexivity. }
  assert (Cy : counted y = counted msg).
  { unfold counted, y, msg. cbn [msg_header msg_fields]. rewrite <- concat_map. fold (encoder (map again (concat x))).
    rewrite PropsV2Forward.encoder_again. reflexivity. }
  rewrite <- E. rewrite (PropsV2Msg.C26_round_trip_partial d L y m rest H); [rewrite Cy; reflexivity| | |rewrite Cy; exact C].
  - destruct (C69_default_header d L H) as [_ T]. cbn [message_default msg_header] in T. unfold well_formed, y. cbn [msg_header msg_fields]. 
    unfold given_header. cbn [h2_msgtype h2_sqn h2_prio h2_teid].
    split; [reflexivity|]. split; [exact Hs|]. split; [intros p Q; exact (proj1 (Hp p Q))|]. split; [|split; [|split; [|split]]].
    + intros t Q. destruct (h2_teid (message_header_default d)); [|discriminate]. cbn in Q. injection Q as <-. exact Ht.
    + rewrite <- T. destruct (h2_teid (message_header_default d)); cbn; split; congruence.
    + intros Q. destruct prio as [p|]; [|reflexivity]. exfalso. apply (proj2 (Hp p eq_refl)). apply T.
      destruct (h2_teid (message_header_default d)); [discriminate|reflexivity].
    + apply PropsV2Forward.conforms_again. refine (Forall2_in _ _ _ _ _ K). intros f v _ [Hv _]. exact Hv.
    + apply Forall_map. clear -K. induction K as [|f v L x [_ Hv] _ IH]; constructor; [|exact IH].
      apply Forall_map. refine (Forall_impl _ _ Hv). intros e [W R]. split; [exact W|]. destruct e; exact R.
  - intros N. unfold y. cbn [msg_fields]. change (@nil ie) with (map again []). rewrite map_nth, map_length. exact (B N).
Qed.
Print Assumptions C69_message_built_partial.

(* The message as default() gives it, nothing set at all: accepted where no field must be given ... *)
Theorem C69_default_message : forall d L m rest, In (d, L) gtpv2_messages -> ~ In (md_name d) (map fst must_be_given) ->
  msg_unmarshal d m (msg_marshal d (message_default d L) [] ++ rest) =
    Ok (mkMsg (with_length (message_header_default d) (counted (message_default d L))) (map (map again) (map field_default L))).
Proof.
  intros d L m rest H N.
  assert (Hh : given_header d 0 0 None = message_header_default d).
  { unfold given_header, message_header_default. cbn [h2_msgtype h2_piggyback h2_length h2_teid]. destruct (existsb _ _); reflexivity. }
  unfold message_default. rewrite <- Hh. apply (C69_message_built_partial d L 0 0 None); try lia; try discriminate; auto.
  - apply Forall2_defaults. intros f I. right. split; [reflexivity|]. intros Q. apply N. apply in_map_iff. exists (md_name d, f_name f). auto.
  - intros E. exfalso. apply N. rewrite E. vm_compute. tauto.
  - pose proof default_sizes as D. rewrite forallb_forall in D. specialize (D _ H). cbn [fst snd] in D. apply N.ltb_lt in D.
    rewrite Hh. exact D.
Qed.
Print Assumptions C69_default_message.

(* ... and otherwise not. *)
Theorem C69_default_message_refuted : forall d L m x, In (d, L) gtpv2_messages -> In (md_name d) (map fst must_be_given) ->
  msg_unmarshal d m (msg_marshal d (message_default d L) []) <> Ok x.
Proof.
  intros d L m x H N.
  assert (A : forallb (fun p => negb (existsb (String.eqb (md_name (fst p))) (map fst must_be_given)) ||
      match msg_unmarshal (fst p) m (msg_marshal (fst p) (message_default (fst p) (snd p)) []) with Ok _ => false | _ => true end) gtpv2_messages = true)
    by (destruct m; vm_compute; reflexivity).
  rewrite forallb_forall in A. specialize (A _ H). cbn [fst snd] in A. rewrite (proj2 (PropsV2Msg.in_eqb _ _) N) in A. cbn [negb orb] in A.
  intros E. rewrite E in A. discriminate.
Qed.
Print Assumptions C69_default_message_refuted.

(* A Forward Relocation Request whose MM context is left at its default brings the receiver down. *)
Theorem C69_relocation_crash_refuted : forall m,
  msg_unmarshal md_forwardrelocationreq m (msg_marshal md_forwardrelocationreq (message_default md_forwardrelocationreq ly_forwardrelocationreq) []) = Panic.
Proof. intros m. destruct m; vm_compute; reflexivity. Qed.
Print Assumptions C69_relocation_crash_refuted.

(* The header's own default() has no message type: a message built with
   [header: Gtpv2Header { teid, sqn, ..Gtpv2Header::default() }] is refused by every decoder. *)
Theorem C69_bare_header_refuted : forall d d' L' teid sqn x m rest, In (d', L') gtpv2_messages ->
  let h := mkHdr2 (h2_msgtype header_default) (h2_piggyback header_default) (h2_prio header_default) (h2_length header_default) teid sqn in
  (forall t, teid = Some t -> t < 4294967296) -> sqn < 16777216 -> nlen (encoder (tovec d x)) < 65528 ->
  msg_unmarshal d' m (msg_marshal d (mkMsg h x) [] ++ rest) = Err MessageIncorrectMessageType.
Proof.
  intros d d' L' teid sqn x m rest H h Ht Hs Hc. unfold msg_marshal. cbn [app msg_header msg_fields]. rewrite set_length_marshal.
  set (e := encoder (tovec d x)) in *.
  assert (Wh : wf_hdr2 (with_length h ((hdr_size h + nlen e) mod 65536))).
  { assert (hdr_size h + nlen e < 65536) by (unfold hdr_size; destruct (h2_teid h); lia). rewrite N.mod_small by assumption.
    unfold wf_hdr2, h, with_length, u16, u32. cbn [h2_msgtype h2_piggyback h2_prio h2_length h2_teid h2_sqn header_default]. repeat split; auto; try discriminate.
    unfold hdr_size. cbn [h2_teid]. destruct teid; [lia|]. split; [lia|reflexivity]. }
  unfold msg_unmarshal. rewrite <- app_assoc, h2_roundtrip by exact Wh. cbn [bind with_length h2_msgtype h header_default].
  destruct (N.eqb_spec 0 (md_type d')) as [E|E]; [|reflexivity]. exfalso.
  assert (A : forallb (fun p => negb (0 =? md_type (fst p))) gtpv2_messages = true) by (vm_compute; reflexivity).
  rewrite forallb_forall in A. specialize (A _ H). cbn [fst] in A. rewrite <- E in A. discriminate.
Qed.
Print Assumptions C69_bare_header_refuted.

(* ------------------------------------------------------------------------- *)
(* Cases that meet the hypotheses *)

(* Fteid { interface: 10, teid: 1, ..Fteid::default() }, built with the length of default(), and the same with
   an IPv6 address, for which that length is wrong *)
Example C69_element_case : fit (IE_Fteid (mkIe 87 9 0 (mkFteid 10 1 (Some [10; 0; 0; 1]) (Some (repeat 1 16))))) /\
  again (IE_Fteid (mkIe 87 9 0 (mkFteid 10 1 (Some [10; 0; 0; 1]) (Some (repeat 1 16))))) =
    IE_Fteid (mkIe 87 25 0 (mkFteid 10 1 (Some [10; 0; 0; 1]) (Some (repeat 1 16)))).
Proof.
  split; [|vm_compute; reflexivity]. split; [|exact I]. vm_compute. repeat split; try reflexivity; try discriminate; repeat constructor; try discriminate.
Qed.

(* DeleteSessionResponse { header: Gtpv2Header { teid: Some(7), sqn: 5, ..default }, recovery: Some(..), ..default() } *)
Example C69_message_case : exists L, In (md_deletesessionresp, L) gtpv2_messages /\
  Forall2 (given_or_default md_deletesessionresp) L ([default_of K_Cause] :: [IE_Recovery (mkIe 3 1 0 17)] :: repeat [] 7) /\
  ~ In (md_name md_deletesessionresp) (map fst must_be_given).
Proof.
  exists ly_deletesessionresp. split; [apply (nth_error_In gtpv2_messages 27); reflexivity|]. split; [|vm_compute; intros Q; repeat (destruct Q as [Q|Q]; [discriminate|]); destruct Q].
  unfold ly_deletesessionresp. cbn [repeat].
  repeat match goal with |- Forall2 _ [] [] => apply Forall2_nil | |- Forall2 _ _ _ => apply Forall2_cons end;
  try (right; split; [reflexivity|vm_compute; intros Q; repeat (destruct Q as [Q|Q]; [discriminate|]); destruct Q]).
  left. split.
  - split; [|split; [cbn; lia|intros c Q; discriminate]]. constructor; [|constructor]. split; [reflexivity|]. exists (InsIs 0). split; [left; reflexivity|reflexivity].
  - constructor; [|constructor]. split; [|exact I]. vm_compute. repeat split; try reflexivity; discriminate.
Qed.
