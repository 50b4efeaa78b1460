(* PropsV2Msg.v - the properties of GTPv2-C messages: C15, C20 (messages), C26-C35. *)
From Coq Require Import String Permutation.
From Verif Require Import Base BaseFacts V2BaseFacts V2MsgWire PropsV2Ie.
Local Open Scope N_scope.

(* Builds the fields of a message from the named ones, the others being empty. *)
Definition fill (L : layout) (given : list (string * list ie)) : list (list ie) :=
  map (fun f => match find (fun p => String.eqb (fst p) (f_name f)) given with Some p => snd p | None => [] end) L.
Definition w_hdr (t : N) : Gtpv2Header := mkHdr2 t false None 0 (Some 7) 42.
Definition w_cause (v ins : N) : ie := IE_Cause (mkIe 2 2 ins (mkCause v false false false None)).
Definition w_imsi (digit : N) : ie := IE_Imsi (mkIe 1 8 0 [digit; 50; 51; 52; 53; 54; 55; 56; 57; 48; 49; 50; 51; 52; 53]).
Definition w_ambr : ie := IE_ApnAmbr (mkIe 72 8 0 (mkAmbr 100 200)).
Definition w_bearer : ie := IE_BearerContext t_bearer.

(* ------------------------------------------------------------------------- *)
(* C26                                                                        *)

(* only ModifyBearerCommand has a Vec of which one element is kept *)
Lemma whole_check : forallb (fun p => forallb (fun q => match f_arity (snd q), f_keep (snd q) with
    | Many, KeepAll => true | Many, _ => String.eqb (md_name (fst p)) "ModifyBearerCommand" && Nat.eqb (fst q) 1 | _, _ => true end)
    (numbered (snd p))) gtpv2_messages = true.
Proof. vm_compute. reflexivity. Qed.

Lemma whole d L x : In (d, L) gtpv2_messages -> conforms L x ->
  (md_name d = "ModifyBearerCommand"%string -> (length (nth 1 x []) <= 1)%nat) -> Forall2 kept_whole L x.
Proof.
  intros H C B. pose proof whole_check as W. rewrite forallb_forall in W. specialize (W _ H). cbn [fst snd] in W. rewrite forallb_forall in W.
  assert (Q : forall i f, nth_error L i = Some f -> kept_whole f (nth i x [])).
  { intros i f Hf. specialize (W _ (numbered_in _ _ _ Hf)). cbn [fst snd] in W. destruct (conforms_nth L x i f C Hf) as (_ & A & _).
    unfold kept_whole. destruct (f_arity f); [right; lia|right; exact A|]. destruct (f_keep f); [|rewrite andb_true_iff in W|left; reflexivity];
    try (rewrite andb_true_iff in W); destruct W as [W1 W2]; apply String.eqb_eq in W1; apply Nat.eqb_eq in W2; subst i; right; apply B; exact W1. }
  clear W B H. revert Q. induction C as [|f v L' x' Hf C IH]; intros Q; constructor.
  - exact (Q 0%nat f eq_refl).
  - apply IH. intros i g Hg. exact (Q (S i) g Hg).
Qed.

Lemma tovec_perm d L x : In (d, L) gtpv2_messages -> length x = length L -> Permutation (tovec d x) (concat x).
Proof.
  intros H Hl. assert (E : concat x = concat (map (fun i => nth i x []) (seq 0 (length L)))).
  { f_equal. rewrite <- Hl. clear. induction x as [|v x IH]; [reflexivity|]. cbn [length seq map nth]. f_equal.
    rewrite <- seq_shift, map_map. exact IH. }
  rewrite E. unfold tovec. assert (P : Permutation (md_tovec d) (seq 0 (length L))).
  { pose proof (mk_tovec d L H) as T. apply NoDup_Permutation.
    - unfold tovec_fits in T. rewrite !andb_true_iff in T. apply pairwise_nodup. apply T.
    - apply seq_NoDup.
    - intros i. split.
      + unfold tovec_fits in T. rewrite !andb_true_iff, forallb_forall in T. intros Hi. apply in_seq. destruct T as [[_ T] _]. apply T, Nat.ltb_lt in Hi. lia.
      + intros Hi. apply in_seq in Hi. eapply tovec_all; [exact T|lia]. }
  clear - P. induction P; cbn [map concat].
  - constructor.
  - apply Permutation_app_head. exact IHP.
  - rewrite !app_assoc. apply Permutation_app_tail, Permutation_app_comm.
  - etransitivity; eassumption.
Qed.

Lemma encoder_length_perm l l' : Permutation l l' -> nlen (encoder l) = nlen (encoder l').
Proof.
  unfold encoder, nlen. intros P. induction P; cbn [map concat]; rewrite ?app_length in *; lia.
Qed.

Lemma teid_starts : forallb (fun p => match md_start (fst p) with
    | Some 12%nat => negb (existsb (String.eqb (md_name (fst p))) without_teid)
    | Some 8%nat => existsb (String.eqb (md_name (fst p))) without_teid
    | _ => existsb (String.eqb (md_name (fst p))) without_teid && is_nil (snd p) end) gtpv2_messages = true.
Proof. vm_compute. reflexivity. Qed.

Lemma in_eqb n l : existsb (String.eqb n) l = true <-> In n l.
Proof.
  rewrite existsb_exists. split.
  - intros [s [H E]]. apply String.eqb_eq in E. subst; exact H.
  - intros H. exists n. split; auto. apply String.eqb_refl.
Qed.

(* Every well-formed message decodes back to itself (with its length field filled in) from its own
   encoding, whatever follows it in the buffer, if its size fits the length field. For ModifyBearerCommand
   the number of bearer contexts must not exceed one. *)
Theorem C26_round_trip_partial : forall d L x m r, In (d, L) gtpv2_messages -> well_formed d L x ->
  (md_name d = "ModifyBearerCommand"%string -> (length (nth 1 (msg_fields x) []) <= 1)%nat) ->
  counted x < 65536 ->
  msg_unmarshal d m (msg_marshal d x [] ++ r) = Ok (mkMsg (with_length (msg_header x) (counted x)) (msg_fields x)).
Proof.
  intros d L [h x] m r H (Ht & Hs & Hp & Htd & Hte & Hpr & C & W) B Sz. cbn [msg_header msg_fields] in *.
  assert (Hlen : length x = length L) by (symmetry; eapply Forall2_len; exact C).
  assert (En : nlen (encoder (tovec d x)) = nlen (encoder (concat x))) by (apply encoder_length_perm; eapply tovec_perm; eauto).
  unfold counted in *. cbn [msg_header msg_fields] in *. change (concat (map ie_marshal (concat x))) with (encoder (concat x)) in *.
  unfold msg_marshal. cbn [app msg_header msg_fields]. rewrite set_length_marshal, En, N.mod_small by exact Sz.
  set (h' := with_length h (hdr_size h + nlen (encoder (concat x)))).
  assert (Wh : wf_hdr2 h').
  { unfold wf_hdr2, h', with_length, u16, u32. cbn [h2_msgtype h2_piggyback h2_prio h2_length h2_teid h2_sqn]. repeat split; auto.
    unfold hdr_size. destruct (h2_teid h) eqn:E; [lia|]. split; [lia|apply Hpr; reflexivity]. }
  pose proof teid_starts as TS. rewrite forallb_forall in TS. specialize (TS _ H). cbn [fst snd] in TS.
  assert (Cr : carries d m ((h2_marshal h' ++ encoder (tovec d x)) ++ r) h' (tovec d x)).
  { destruct (md_start d) as [s|] eqn:Es.
    - eapply marshal_carries; eauto.
      + assert (X : (s = 12 /\ negb (existsb (String.eqb (md_name d)) without_teid) = true \/ s = 8 /\ existsb (String.eqb (md_name d)) without_teid = true)%nat).
        { pose proof starts_ok as S. rewrite forallb_forall in S. specialize (S _ H). unfold no_start_no_fields in S. cbn [fst snd] in S. rewrite Es in S.
          rewrite orb_true_iff, !Nat.eqb_eq in S. destruct S as [->| ->]; auto. }
        unfold hdr_size, h', with_length. cbn [h2_teid]. destruct X as [[-> X]|[-> X]].
        * destruct (h2_teid h); [reflexivity|]. rewrite negb_true_iff in X. exfalso. rewrite (proj2 (in_eqb _ _)) in X; [discriminate|]. apply Hte. reflexivity.
        * apply in_eqb, Hte in X. rewrite X. reflexivity.
      + unfold h', with_length. cbn [h2_length h2_teid hdr_size]. unfold hdr_size. cbn [h2_teid]. rewrite En. reflexivity.
      + unfold tovec. apply Forall_concat. apply Forall_map, Forall_forall. intros i _. rewrite Forall_forall in W.
        destruct (Nat.lt_ge_cases i (length x)) as [Hi|Hi]; [apply W, nth_In; exact Hi|rewrite nth_overflow by exact Hi; constructor].
    - unfold carries. rewrite Es. rewrite <- app_assoc, h2_roundtrip by exact Wh. repeat split; auto.
      rewrite andb_true_iff in TS. destruct TS as [_ TS]. destruct L; [|discriminate].
      destruct x; [|discriminate]. unfold tovec. clear. induction (md_tovec d) as [|i l IH]; cbn; [reflexivity|]. destruct i; exact IH. }
  rewrite (unmarshal_carries d L m _ h' _ H Cr), (fromvec_tovec d L x H C (whole d L x H C B)). reflexivity.
Qed.
Print Assumptions C26_round_trip_partial.

(* If the length field is already right the message comes back unchanged. *)
Theorem C26_round_trip_exact_partial : forall d L x m, In (d, L) gtpv2_messages -> well_formed d L x ->
  (md_name d = "ModifyBearerCommand"%string -> (length (nth 1 (msg_fields x) []) <= 1)%nat) ->
  counted x < 65536 -> h2_length (msg_header x) = counted x ->
  msg_unmarshal d m (msg_marshal d x []) = Ok x.
Proof.
  intros d L x m H W B Sz E. pose proof (C26_round_trip_partial d L x m [] H W B Sz) as R. rewrite app_nil_r in R. rewrite R, <- E.
  destruct x as [[? ? ? ? ? ?] ?]. reflexivity.
Qed.
Print Assumptions C26_round_trip_exact_partial.


(* A create session request with an IMSI, a RAT type, an F-TEID, an APN and two bearer contexts. *)
Definition w_csr : message := mkMsg (mkHdr2 32 false (Some 5) 0 (Some 7) 42)
  (fill ly_createsessionreq [("imsi", [w_imsi 49]); ("rattype", [IE_RatType (mkIe 82 1 0 Rat_Eutran)]);
    ("fteid_control", [IE_Fteid t_fteid]); ("apn", [IE_Apn (mkIe 71 5 0 [97; 46; 98; 99])]);
    ("bearer_ctxs", [w_bearer; IE_BearerContext (mkIe 93 18 1 (ie_v t_bearer))])]%string).

Ltac wf_ies := repeat constructor; try (intros; discriminate); vm_compute; try reflexivity; try discriminate; repeat constructor.
Ltac listed := repeat (first [left; reflexivity | right]).
Ltac wf_msg :=
  split; [reflexivity|]; split; [reflexivity|]; split; [intros ? [= <-]; reflexivity|]; split; [intros ? [= <-]; reflexivity|];
  split; [split; [discriminate|intros [C|[C|[C|[]]]]; discriminate C]|]; split; [discriminate|]; split;
  [apply conformsb_ok; vm_compute; reflexivity | wf_ies].

Example C26_witness : In (md_createsessionreq, ly_createsessionreq) gtpv2_messages /\
  well_formed md_createsessionreq ly_createsessionreq w_csr /\ counted w_csr < 65536.
Proof. split; [listed|]. split; [wf_msg|vm_compute; reflexivity]. Qed.

(* What is missing from C26, by counter-example. A modify bearer command with two bearer contexts comes back
   with one. *)
Definition w_mbc : message := mkMsg (w_hdr 64)
  (fill ly_modifybearercommand [("apnambr", [w_ambr]); ("bearer_ctxs", [w_bearer; w_bearer])]%string).
Theorem C26_second_bearer_refuted : well_formed md_modifybearercommand ly_modifybearercommand w_mbc /\
  forall m, exists y, msg_unmarshal md_modifybearercommand m (msg_marshal md_modifybearercommand w_mbc []) = Ok y /\
    nth 1 (msg_fields w_mbc) [] = [w_bearer; w_bearer] /\ nth 1 (msg_fields y) [] = [w_bearer].
Proof.
  split; [wf_msg|]. intros [|]; eexists; (split; [vm_compute; reflexivity|split; reflexivity]).
Qed.
Print Assumptions C26_second_bearer_refuted.

(* A modify bearer request with a WLAN location (a TWAN Identifier) is not accepted back: the IE is read as
   an Action Indication. *)
Definition w_twan : Tliv twan_id := mkIe 169 3 0 (mkTwanId [65] None None None None None None).
Definition w_mbr : message := mkMsg (w_hdr 34) (fill ly_modifybearerreq [("wlan_loc", [IE_TwanId w_twan])]%string).
Theorem C26_twan_refuted : TwanId_wf w_twan /\ conforms ly_modifybearerreq (msg_fields w_mbr) /\
  forall m y, msg_unmarshal md_modifybearerreq m (msg_marshal md_modifybearerreq w_mbr []) = Ok y -> msg_fields y <> msg_fields w_mbr.
Proof.
  split; [wf_ies|]. split; [apply conformsb_ok; vm_compute; reflexivity|].
  intros [|] y; vm_compute; intros H; try discriminate; injection H as <-; intros E; discriminate E.
Qed.
Print Assumptions C26_twan_refuted.

(* A message whose header has no TEID loses the first four octets of its IEs: here the cause. *)
Definition w_det : message := mkMsg (mkHdr2 150 false None 0 None 42) (fill ly_detachacknowledge [("cause", [w_cause 16 0])]%string).
Theorem C26_no_teid_refuted : conforms ly_detachacknowledge (msg_fields w_det) /\
  forall m y, msg_unmarshal md_detachacknowledge m (msg_marshal md_detachacknowledge w_det []) <> Ok y.
Proof.
  split; [apply conformsb_ok; vm_compute; reflexivity|]. intros [|] y; vm_compute; discriminate.
Qed.
Print Assumptions C26_no_teid_refuted.

(* ------------------------------------------------------------------------- *)
(* C27                                                                        *)

(* A packet is accepted exactly if none of the mandatory IEs of the message is missing from it (all message
   kinds but IdentificationResponse). *)
Theorem C27_mandatory_enforced_partial : forall d L m b h l, In (d, L) gtpv2_messages ->
  md_name d <> "IdentificationResponse"%string -> carries d m b h l ->
  (exists x, msg_unmarshal d m b = Ok x) <-> (forall f, In f L -> ~ missing f l).
Proof.
  intros d L m b h l H Hn C. rewrite (unmarshal_carries d L m b h l H C).
  assert (U : ~ In (md_name d) unenforced) by (intros [E|[]]; congruence).
  rewrite <- (fromvec_ok_iff d L (mk_good d L H) (mk_flags d L H) (mk_enforces d L H U)).
  split; intros [x Hx].
  - destruct (fromvec d l) as [y| | |]; cbn [bind] in Hx; try discriminate. eauto.
  - exists (mkMsg h x). rewrite Hx. reflexivity.
Qed.
Print Assumptions C27_mandatory_enforced_partial.

(* Otherwise the result is the missing-mandatory-IE error, with the type code of an IE that is missing (all
   but four more message kinds). *)
Theorem C27_error_names_missing_partial : forall d L m b h l, In (d, L) gtpv2_messages ->
  ~ In (md_name d) ["IdentificationResponse"; "CreateForwardingTunnelResponse"; "CreateIndirectDataForwardingTunnelResponse";
                    "ForwardRelocationRequest"; "MbmsSessionStartRequest"]%string ->
  carries d m b h l -> (exists f, In f L /\ missing f l) ->
  exists c f, msg_unmarshal d m b = Err (MessageMandatoryIEMissing c) /\ In f L /\ missing f l /\
    forall e, kind_of e = f_kind f -> has_code e c.
Proof.
  intros d L m b h l H Hn C [f0 [Hf0 Hm0]]. rewrite (unmarshal_carries d L m b h l H C).
  assert (U : ~ In (md_name d) unenforced) by (intros [E|[]]; apply Hn; left; exact E).
  assert (V : ~ In (md_name d) misnamed) by (intros V; apply Hn; right; exact V).
  pose proof (fromvec_ok_iff d L (mk_good d L H) (mk_flags d L H) (mk_enforces d L H U) l) as I.
  destruct (fromvec d l) as [x|e| |] eqn:E.
  - exfalso. apply (proj1 I (ex_intro _ x eq_refl) f0 Hf0 Hm0).
  - destruct (fromvec_err_names d L (mk_good d L H) (mk_flags d L H) (mk_enforces d L H U) l e (mk_names d L H V) E) as [c [f [-> [H1 [H2 H3]]]]].
    exists c, f. auto.
  - unfold fromvec in E. destruct (decide _ _); discriminate.
  - unfold fromvec in E. destruct (decide _ _); discriminate.
Qed.
Print Assumptions C27_error_names_missing_partial.

(* For those four the error is still the missing-mandatory-IE error. *)
Theorem C27_error_kind_partial : forall d L m b h l, In (d, L) gtpv2_messages ->
  md_name d <> "IdentificationResponse"%string -> carries d m b h l -> (exists f, In f L /\ missing f l) ->
  exists c, msg_unmarshal d m b = Err (MessageMandatoryIEMissing c).
Proof.
  intros d L m b h l H Hn C [f0 [Hf0 Hm0]]. rewrite (unmarshal_carries d L m b h l H C).
  assert (U : ~ In (md_name d) unenforced) by (intros [E|[]]; congruence).
  pose proof (fromvec_ok_iff d L (mk_good d L H) (mk_flags d L H) (mk_enforces d L H U) l) as I.
  unfold fromvec in *. destruct (decide _ _) as [c|]; [exists c; reflexivity|].
  exfalso. apply (proj1 I (ex_intro _ _ eq_refl) f0 Hf0 Hm0).
Qed.
Print Assumptions C27_error_kind_partial.

Definition packet (t : N) (l : list ie) : list N := set_msg_length (h2_marshal (w_hdr t) ++ encoder l).
Example C27_witness : In (md_updatebearerreq, ly_updatebearerreq) gtpv2_messages /\
  (exists h, carries md_updatebearerreq Debug (packet 97 [w_bearer]) h [w_bearer]) /\
  missing (field "apnambr" K_ApnAmbr One [InsIs 0] (Some (InsIs 0)) KeepFirst) [w_bearer] /\
  msg_unmarshal md_updatebearerreq Debug (packet 97 [w_bearer]) = Err (MessageMandatoryIEMissing 72).
Proof.
  split; [listed|]. split; [eexists; unfold carries; split; [vm_compute; reflexivity|]; split; [reflexivity|]; cbn [md_start md_updatebearerreq];
    split; [split; vm_compute; repeat constructor|vm_compute; reflexivity]|].
  split; [|vm_compute; reflexivity]. exists (InsIs 0). split; [reflexivity|]. intros e [<-|[]] [K _]. discriminate K.
Qed.

(* An identification response without its mandatory cause is accepted, with a cause nobody sent. *)
Theorem C27_identification_refuted : forall m, exists y,
  msg_unmarshal md_identificationresp m (packet 129 [w_imsi 49]) = Ok y /\
  nth 0 (msg_fields y) [] = [w_cause 0 0] /\ missing (nth 0 ly_identificationresp (field "" K_Imsi One [] None KeepFirst)) [w_imsi 49].
Proof.
  intros [|]; eexists; (split; [vm_compute; reflexivity|]); (split; [reflexivity|]); exists (InsIs 0); (split; [reflexivity|]);
    intros e [<-|[]] [K _]; discriminate K.
Qed.
Print Assumptions C27_identification_refuted.

(* The four messages whose error names an IE that is not the missing one: a create forwarding tunnel
   response without its cause reports the S103 PDN data forwarding info, a create indirect data forwarding
   tunnel response without any IE reports the code 0 (reserved), a forward relocation request without its
   F-TEID reports the IMSI even if there is one, an MBMS session start request without the multicast
   distribution reports the service area even if there is one. *)
Definition w_mbms : list ie := [IE_Fteid t_fteid; IE_Tmgi (mkIe 158 6 0 [1; 2; 3; 4; 5; 6]); IE_MbmsSd (mkIe 138 3 0 (mkMbmsSd 100 1));
  IE_MbmsSa (mkIe 139 3 0 [7]); IE_BearerQos (mkIe 80 22 0 (mkBearerQos 1 2 1 9 0 0 0 0))].
Theorem C27_misnamed_refuted : forall m,
  msg_unmarshal md_createforwardingtunnelresp m (packet 161 []) = Err (MessageMandatoryIEMissing 90) /\
  msg_unmarshal md_createindirectdatafwtunnelresp m (packet 167 []) = Err (MessageMandatoryIEMissing 0) /\
  msg_unmarshal md_forwardrelocationreq m (packet 133 [w_imsi 49]) = Err (MessageMandatoryIEMissing 1) /\
  msg_unmarshal md_mbmssessionstartreq m (packet 231 w_mbms) = Err (MessageMandatoryIEMissing 139) /\
  (forall e, kind_of e = K_Cause -> ~ has_code e 90) /\ (exists e, In e [w_imsi 49] /\ has_code e 1) /\
  (exists e, In e w_mbms /\ has_code e 139).
Proof.
  intros m. split; [destruct m; vm_compute; reflexivity|]. split; [destruct m; vm_compute; reflexivity|].
  split; [destruct m; vm_compute; reflexivity|]. split; [destruct m; vm_compute; reflexivity|]. split.
  - intros e K. destruct e; cbn in K; try discriminate K. cbn. discriminate.
  - split; [exists (w_imsi 49)|exists (IE_MbmsSa (mkIe 139 3 0 [7]))]; (split; [cbn; tauto|reflexivity]).
Qed.
Print Assumptions C27_misnamed_refuted.

(* ------------------------------------------------------------------------- *)
(* C28                                                                        *)

(* the fields that keep the last IE received, and the Vec that keeps one *)
Definition last_wins : list (string * string) := [
  ("CreateForwardingTunnelResponse", "cause"); ("CreateIndirectDataForwardingTunnelResponse", "cause");
  ("DeleteIndirectDataForwardingTunnelResponse", "cause"); ("DeletePndConnectionSetResponse", "cause");
  ("DetachAcknowledge", "cause"); ("DownlinkDataNotificationAcknowledge", "cause"); ("IsrStatusIndication", "action_ind");
  ("PgwRestartNotification", "cause"); ("PgwRestartNotificationAcknowledge", "cause"); ("RemoteUeReportAcknowledge", "cause");
  ("StopPagingIndication", "imsi"); ("UeRegistrationQueryRequest", "imsi"); ("UpdatePndConnectionSetResponse", "cause")]%string.
Definition odd_fields : list (string * string) :=
  (("ModifyBearerCommand", "bearer_ctxs") :: ("IdentificationResponse", "cause") :: last_wins)%string.

Definition pair_eqb (p q : string * string) : bool := String.eqb (fst p) (fst q) && String.eqb (snd p) (snd q).
Lemma pair_in p l : existsb (pair_eqb p) l = true <-> In p l.
Proof.
  rewrite existsb_exists. unfold pair_eqb. split.
  - intros [q [H E]]. rewrite andb_true_iff, !String.eqb_eq in E. destruct p, q, E; cbn in *; subst; exact H.
  - intros H. exists p. split; auto. rewrite !String.eqb_refl. reflexivity.
Qed.

Lemma natural_check : forallb (fun p => forallb (fun q =>
    if existsb (pair_eqb (md_name (fst p), f_name (snd q))) odd_fields then true
    else natural (snd q) && is_nil (nth (fst q) (md_init (fst p)) [])) (numbered (snd p))) gtpv2_messages = true.
Proof. vm_compute. reflexivity. Qed.

(* After decoding a packet that carries the IEs l, every single-valued field holds the first IE of l of its
   kind and instance, and every Vec all of them in order - except the fields listed. *)
Theorem C28_first_wins_partial : forall d L m b h l x i f, In (d, L) gtpv2_messages -> carries d m b h l ->
  msg_unmarshal d m b = Ok x -> nth_error L i = Some f -> ~ In (md_name d, f_name f) odd_fields ->
  received f l (nth i (msg_fields x) []).
Proof.
  intros d L m b h l x i f H C U Hf Ho. rewrite (unmarshal_carries d L m b h l H C) in U.
  destruct (fromvec d l) as [y| | |] eqn:E; try discriminate. injection U as <-. cbn [msg_fields].
  rewrite (fromvec_contents d L l y (mk_good d L H) E).
  pose proof natural_check as W. rewrite forallb_forall in W. specialize (W _ H). cbn [fst snd] in W. rewrite forallb_forall in W.
  specialize (W _ (numbered_in _ _ _ Hf)). cbn [fst snd] in W. destruct (existsb _ odd_fields) eqn:X.
  - apply pair_in in X. contradiction.
  - rewrite andb_true_iff in W. destruct W. apply received_contents; auto. apply (mk_good d L H).
Qed.
Print Assumptions C28_first_wins_partial.

(* The list of IEs a packet carries and the field contents are determined, so this says it all. *)
Theorem C28_received_unique : forall f l v v', received f l v -> received f l v' -> v = v'.
Proof. intros f l v v' [s [S E]] [s' [S' E']]. rewrite (sublist_unique _ _ _ _ S S') in E. congruence. Qed.
Print Assumptions C28_received_unique.

Example C28_witness : exists x h, carries md_updatebearerreq Debug (packet 97 [w_bearer; w_ambr; IE_ApnAmbr (mkIe 72 8 0 (mkAmbr 1 1)); w_bearer]) h
      [w_bearer; w_ambr; IE_ApnAmbr (mkIe 72 8 0 (mkAmbr 1 1)); w_bearer] /\
  msg_unmarshal md_updatebearerreq Debug (packet 97 [w_bearer; w_ambr; IE_ApnAmbr (mkIe 72 8 0 (mkAmbr 1 1)); w_bearer]) = Ok x /\
  nth 3 (msg_fields x) [] = [w_ambr] /\ nth 0 (msg_fields x) [] = [w_bearer; w_bearer].
Proof.
  eexists; eexists. split; [unfold carries; split; [vm_compute; reflexivity|]; split; [reflexivity|]; cbn [md_start md_updatebearerreq];
    split; [split; vm_compute; repeat constructor|vm_compute; reflexivity]|]. split; [vm_compute; reflexivity|]. split; reflexivity.
Qed.

(* In the thirteen fields listed it is the last IE of the right kind and instance that is kept. *)
Lemma last_check : forallb (fun p => forallb (fun q =>
    if existsb (pair_eqb (md_name (fst p), f_name (snd q))) last_wins
    then match f_keep (snd q), f_arity (snd q) with KeepLast, (One | Opt) => is_nil (nth (fst q) (md_init (fst p)) []) | _, _ => false end else true) (numbered (snd p))) gtpv2_messages = true.
Proof. vm_compute. reflexivity. Qed.
Lemma last_present : forallb (fun q => existsb (fun p => String.eqb (md_name (fst p)) (fst q) && existsb (fun f => String.eqb (f_name f) (snd q)) (snd p)) gtpv2_messages) last_wins = true.
Proof. vm_compute. reflexivity. Qed.

Theorem C28_last_wins_refuted : forall d L m b h l x i f, In (d, L) gtpv2_messages -> carries d m b h l ->
  msg_unmarshal d m b = Ok x -> nth_error L i = Some f -> In (md_name d, f_name f) last_wins ->
  exists s, sublist (belongs f) l s /\ nth i (msg_fields x) [] = head_of (rev s).
Proof.
  intros d L m b h l x i f H C U Hf Ho. rewrite (unmarshal_carries d L m b h l H C) in U.
  destruct (fromvec d l) as [y| | |] eqn:E; try discriminate. injection U as <-. cbn [msg_fields].
  rewrite (fromvec_contents d L l y (mk_good d L H) E).
  pose proof last_check as W. rewrite forallb_forall in W. specialize (W _ H). cbn [fst snd] in W. rewrite forallb_forall in W.
  specialize (W _ (numbered_in _ _ _ Hf)). cbn [fst snd] in W. rewrite (proj2 (pair_in _ _) Ho) in W.
  exists (filter (fits f) l). split; [apply sublist_filter, fits_belongs|].
  rewrite (nth_error_nth _ _ _ (contents_nth d L l i f Hf)).
  assert (N : nth i (md_init d) [] = []) by (destruct (f_keep f), (f_arity f), (nth i (md_init d) []); try discriminate; reflexivity).
  assert (K : f_keep f = KeepLast) by (destruct (f_keep f), (f_arity f); try discriminate; reflexivity).
  rewrite N, K. cbn [keeps]. destruct (rev (filter (fits f) l)); reflexivity.
Qed.
Print Assumptions C28_last_wins_refuted.
Example C28_last_wins_witness : exists x, msg_unmarshal md_detachacknowledge Debug (packet 150 [w_cause 16 0; w_cause 17 0]) = Ok x /\
  nth 0 (msg_fields x) [] = [w_cause 17 0].
Proof. eexists. split; [vm_compute; reflexivity|reflexivity]. Qed.

(* The bearer contexts of a modify bearer command: only the first is kept. *)
Theorem C28_modify_bearer_refuted : forall m b h l x, carries md_modifybearercommand m b h l ->
  msg_unmarshal md_modifybearercommand m b = Ok x ->
  exists s, sublist (belongs (field "bearer_ctxs" K_BearerContext Many [InsIs 0] (Some (InsIs 0)) KeepFirst)) l s /\
    nth 1 (msg_fields x) [] = head_of s.
Proof.
  intros m b h l x C U. assert (H : In (md_modifybearercommand, ly_modifybearercommand) gtpv2_messages) by listed.
  rewrite (unmarshal_carries _ _ m b h l H C) in U.
  destruct (fromvec md_modifybearercommand l) as [y| | |] eqn:E; try discriminate. injection U as <-. cbn [msg_fields].
  rewrite (fromvec_contents _ _ l y (mk_good _ _ H) E).
  eexists. split; [apply sublist_filter, fits_belongs|].
  rewrite (nth_error_nth _ _ _ (contents_nth _ ly_modifybearercommand l 1%nat _ eq_refl)).
  cbn [md_init md_modifybearercommand nth f_keep keeps]. destruct (filter _ l); reflexivity.
Qed.
Print Assumptions C28_modify_bearer_refuted.

(* The cause of an identification response: the first, if there is one. *)
Theorem C28_identification_cause_partial : forall m b h l x e s, carries md_identificationresp m b h l ->
  msg_unmarshal md_identificationresp m b = Ok x ->
  sublist (belongs (field "cause" K_Cause One [InsIs 0] (Some (InsIs 0)) KeepFirst)) l (e :: s) -> nth 0 (msg_fields x) [] = [e].
Proof.
  intros m b h l x e s C U S. assert (H : In (md_identificationresp, ly_identificationresp) gtpv2_messages) by listed.
  rewrite (unmarshal_carries _ _ m b h l H C) in U.
  destruct (fromvec md_identificationresp l) as [y| | |] eqn:E; try discriminate. injection U as <-. cbn [msg_fields].
  rewrite (fromvec_contents _ _ l y (mk_good _ _ H) E).
  rewrite (nth_error_nth _ _ _ (contents_nth _ ly_identificationresp l 0%nat _ eq_refl)).
  pose proof (sublist_filter (belongs (field "cause" K_Cause One [InsIs 0] (Some (InsIs 0)) KeepFirst)) _ l (fits_belongs _)) as Q.
  rewrite <- (sublist_unique _ _ _ _ S Q). reflexivity.
Qed.
Print Assumptions C28_identification_cause_partial.

(* ------------------------------------------------------------------------- *)
(* C29                                                                        *)

(* An IE that belongs to no field of the message may be put anywhere in the list of IEs: two packets with
   the same IEs but for it decode to the same fields, or give the same error. *)
Theorem C29_irrelevant_ies : forall d L m b b' h h' l1 e l2, In (d, L) gtpv2_messages ->
  (forall f, In f L -> ~ belongs f e) ->
  carries d m b h (l1 ++ l2) -> carries d m b' h' (l1 ++ e :: l2) ->
  match msg_unmarshal d m b, msg_unmarshal d m b' with
  | Ok x, Ok y => msg_fields x = msg_fields y
  | Err u, Err v => u = v
  | _, _ => False
  end.
Proof.
  intros d L m b b' h h' l1 e l2 H Hi C C'. rewrite (unmarshal_carries d L m b h _ H C), (unmarshal_carries d L m b' h' _ H C').
  rewrite (fromvec_irrelevant d L) by (auto; apply (mk_good d L H)). unfold fromvec. destruct (decide _ _); reflexivity.
Qed.
Print Assumptions C29_irrelevant_ies.
Example C29_witness : let e := IE_Imsi (mkIe 1 8 1 (repeat 49 15)) in
  (forall f, In f ly_updatebearerreq -> ~ belongs f e) /\
  (exists h, carries md_updatebearerreq Debug (packet 97 [w_bearer; w_ambr]) h ([w_bearer] ++ [w_ambr])) /\
  (exists h, carries md_updatebearerreq Debug (packet 97 [w_bearer; e; w_ambr]) h ([w_bearer] ++ e :: [w_ambr])).
Proof.
  split.
  - intros f Hf B. apply fits_belongs in B. assert (X : forallb (fun f => negb (fits f (IE_Imsi (mkIe 1 8 1 (repeat 49 15))))) ly_updatebearerreq = true) by (vm_compute; reflexivity).
    rewrite forallb_forall in X. specialize (X f Hf). rewrite B in X. discriminate.
  - split; eexists; (split; [vm_compute; reflexivity|]; split; [reflexivity|]; cbn [md_start md_updatebearerreq];
      split; [split; vm_compute; repeat constructor|vm_compute; reflexivity]).
Qed.

(* ------------------------------------------------------------------------- *)
(* C30                                                                        *)

Lemma h2_fixed b h : h2_unmarshal b = Ok h -> h2_msgtype h = type_octet b /\ h2_length h = declared_length b.
Proof.
  intros H. destruct (h2_inv b h H) as (b0 & l1 & l2 & r & -> & Hl & _). unfold type_octet, declared_length. cbn [nth]. split; [reflexivity|exact Hl].
Qed.

(* A packet with another type octet is never accepted; if its header is readable the error says so. *)
Theorem C30_type_checked : forall d L m b, In (d, L) gtpv2_messages -> type_octet b <> md_type d ->
  (forall x, msg_unmarshal d m b <> Ok x) /\
  (forall h, h2_unmarshal b = Ok h -> msg_unmarshal d m b = Err MessageIncorrectMessageType).
Proof.
  intros d L m b H T.
  assert (X : forall h, h2_unmarshal b = Ok h -> msg_unmarshal d m b = Err MessageIncorrectMessageType).
  { intros h Hh. unfold msg_unmarshal. rewrite Hh. cbn [bind]. destruct (h2_fixed b h Hh) as [-> _].
    destruct (N.eqb_spec (type_octet b) (md_type d)); [contradiction|reflexivity]. }
  split; [|exact X]. intros x U. unfold msg_unmarshal in U. destruct (h2_unmarshal b) as [h| | |] eqn:Hh; try discriminate.
  specialize (X h eq_refl). unfold msg_unmarshal in X. rewrite Hh in X. congruence.
Qed.
Print Assumptions C30_type_checked.
Example C30_witness : exists h, h2_unmarshal (packet 97 [w_bearer]) = Ok h /\ type_octet (packet 97 [w_bearer]) <> md_type md_createsessionreq.
Proof. eexists. split; [vm_compute; reflexivity|vm_compute; discriminate]. Qed.

(* ------------------------------------------------------------------------- *)
(* C31                                                                        *)

(* A buffer shorter than its declared length is answered with an error (all messages but
   VersionNotSupported). *)
Theorem C31_truncated_rejected_partial : forall d L m b, In (d, L) gtpv2_messages -> md_name d <> "VersionNotSupported"%string ->
  N.of_nat (length b) < declared_length b + 4 -> exists e, msg_unmarshal d m b = Err e.
Proof.
  intros d L m b H Hn T. unfold msg_unmarshal. pose proof (h2_returns b) as R. destruct (h2_unmarshal b) as [h|e| |] eqn:Hh; try contradiction; [|exists e; reflexivity].
  cbn [bind]. destruct (negb _); [eauto|]. destruct (md_start d) as [s|] eqn:Es.
  - destruct (h2_fixed b h Hh) as [_ E]. unfold MANDATORY_HDR_LENGTH.
    destruct (Nat.leb_spec (N.to_nat (h2_length h) + 4) (length b)); [lia|eauto].
  - exfalso. assert (X : forallb (fun p => match md_start (fst p) with None => String.eqb (md_name (fst p)) "VersionNotSupported" | Some _ => true end) gtpv2_messages = true) by (vm_compute; reflexivity).
    rewrite forallb_forall in X. specialize (X _ H). cbn [fst] in X. rewrite Es in X. apply String.eqb_eq in X. contradiction.
Qed.
Print Assumptions C31_truncated_rejected_partial.

(* Octets after the declared length do not matter, provided the declared length covers the header. *)
Theorem C31_trailing_ignored : forall d m b r, declared_length b + 4 <= N.of_nat (length b) ->
  (if teid_bit b then 8 else 4) <= declared_length b ->
  msg_unmarshal d m (b ++ r) = msg_unmarshal d m b.
Proof.
  intros d m b r T D.
  assert (B4 : (8 <= length b)%nat) by (destruct (teid_bit b); lia).
  assert (Hh : h2_unmarshal (b ++ r) = h2_unmarshal b).
  { pose proof (h2_returns b) as R. destruct (h2_unmarshal b) as [h|e| |] eqn:Hh; try contradiction; [apply h2_unmarshal_app; exact Hh|].
    revert Hh D. unfold h2_unmarshal, declared_length, teid_bit, MIN_HEADER_LENGTH, MAX_HEADER_LENGTH in *.
    destruct (Nat.leb_spec 8 (length b)) as [_|]; [|lia]. destruct (Nat.leb_spec 8 (length (b ++ r))) as [_|X]; [|rewrite app_length in X; lia].
    assert (B8 := B4). list_split b B4. cbn [nth] in *.
    change ((x :: x0 :: x1 :: x2 :: x3 :: x4 :: x5 :: x6 :: b) ++ r) with (x :: x0 :: x1 :: x2 :: x3 :: x4 :: x5 :: x6 :: (b ++ r)).
    rewrite !at_cons, !at_0. cbn [bind]. rewrite !land_shift_1.
    destruct (negb _); [intros E _; exact E|]. destruct (N.testbit x 3) eqn:Et; cbn [N.eqb].
    - intros E D.
      destruct (Nat.leb_spec 12 (length (x :: x0 :: x1 :: x2 :: x3 :: x4 :: x5 :: x6 :: b))) as [H2|X]; [|cbn [length] in T, X; lia].
      destruct (Nat.leb_spec 12 (length (x :: x0 :: x1 :: x2 :: x3 :: x4 :: x5 :: x6 :: (b ++ r)))) as [_|X]; [|cbn [length] in H2, X; rewrite app_length in X; lia].
      cbn [length] in H2. do 8 apply le_S_n in H2. list_split b H2.
      change ((x7 :: x8 :: x9 :: x10 :: b) ++ r) with (x7 :: x8 :: x9 :: x10 :: (b ++ r)).
      rewrite !at_cons, !at_0 in *. exact E.
    - intros E _. exact E. }
  unfold msg_unmarshal. rewrite Hh. destruct (h2_unmarshal b) as [h|e| |] eqn:E; try reflexivity. cbn [bind].
  destruct (negb _); [reflexivity|]. destruct (md_start d) as [s|]; [|reflexivity].
  destruct (h2_fixed b h E) as [_ El]. unfold MANDATORY_HDR_LENGTH.
  destruct (Nat.leb_spec (N.to_nat (h2_length h) + 4) (length (b ++ r))) as [_|X]; [|rewrite app_length in X; lia].
  destruct (Nat.leb_spec (N.to_nat (h2_length h) + 4) (length b)) as [X|X]; [|lia].
  unfold slice. rewrite (proj2 (Nat.leb_le _ _) X), (proj2 (Nat.leb_le _ (length (b ++ r)))) by (rewrite app_length; lia).
  destruct (Nat.leb_spec s (N.to_nat (h2_length h) + 4)) as [Y|Y]; [|reflexivity]. cbn [andb bind].
  assert (F : firstn (N.to_nat (h2_length h) + 4 - s) (skipn s (b ++ r)) = firstn (N.to_nat (h2_length h) + 4 - s) (skipn s b)).
  { rewrite skipn_app, firstn_app, skipn_length. replace (N.to_nat (h2_length h) + 4 - s - (length b - s))%nat with 0%nat by lia.
    cbn [firstn]. apply app_nil_r. }
  rewrite F. reflexivity.
Qed.
Print Assumptions C31_trailing_ignored.
Example C31_witness : declared_length (packet 97 [w_bearer; w_ambr]) + 4 <= N.of_nat (length (packet 97 [w_bearer; w_ambr])) /\
  8 <= declared_length (packet 97 [w_bearer; w_ambr]) /\
  exists x, msg_unmarshal md_updatebearerreq Debug (packet 97 [w_bearer; w_ambr]) = Ok x.
Proof. split; [vm_compute; discriminate|]. split; [vm_compute; discriminate|]. eexists. vm_compute. reflexivity. Qed.

(* VersionNotSupported does not look at the length. *)
Theorem C31_version_not_supported_refuted : forall m n, n <= 65535 -> 4 <= n -> exists x,
  msg_unmarshal md_versionnotsupported m [64; 3; n / 256; n mod 256; 0; 0; 1; 0] = Ok x.
Proof.
  intros m n H H4. unfold msg_unmarshal, h2_unmarshal, MIN_HEADER_LENGTH. cbn [length Nat.leb]. rewrite !at_cons, !at_0. cbn [bind].
  change (N.shiftr 64 5) with 2. change (N.land (N.shiftr 64 3) 1) with 0. cbn [N.eqb Pos.eqb negb].
  unfold be16. replace (n / 256 * 256 + n mod 256) with n by lia.
  destruct (N.eqb_spec n 0); [lia|]. destruct (N.ltb_spec n 4); [lia|]. cbn [bind h2_msgtype md_type md_versionnotsupported N.eqb Pos.eqb negb md_start]. eexists. reflexivity.
Qed.
Print Assumptions C31_version_not_supported_refuted.

(* ------------------------------------------------------------------------- *)
(* C32 and C15                                                                *)

Lemma set_nth_length b i v : length (set_nth b i v) = length b.
Proof. revert i; induction b; destruct i; cbn; auto. Qed.

(* After encoding into an empty buffer octets 3-4 hold the number of octets after the first four, if it fits. *)
Theorem C32_length_field : forall d x, N.of_nat (length (msg_marshal d x [])) - 4 < 65536 ->
  declared_length (msg_marshal d x []) + 4 = N.of_nat (length (msg_marshal d x [])).
Proof.
  intros d x. unfold msg_marshal. cbn [app]. rewrite set_length_marshal. set (e := encoder _).
  rewrite app_length, Nat2N.inj_add. pose proof (h2_marshal_length (with_length (msg_header x) ((hdr_size (msg_header x) + nlen e) mod 65536))) as M.
  unfold nlen in M at 1. rewrite M. replace (hdr_size (with_length (msg_header x) ((hdr_size (msg_header x) + nlen e) mod 65536))) with (hdr_size (msg_header x)) by reflexivity.
  fold (nlen e). intros H. unfold declared_length, h2_marshal. cbn [app nth enc16 with_length h2_length]. rewrite N.mod_small by lia. lia.
Qed.
Print Assumptions C32_length_field.
Example C32_witness : N.of_nat (length (msg_marshal md_createsessionreq w_csr [])) - 4 < 65536 /\ (12 < length (msg_marshal md_createsessionreq w_csr []))%nat.
Proof. vm_compute. split; [reflexivity|]. repeat constructor. Qed.

(* Without the restriction the field is the number of octets modulo 65536. *)
Theorem C32_length_field_wraps : forall d x,
  declared_length (msg_marshal d x []) = (N.of_nat (length (msg_marshal d x [])) - 4) mod 65536.
Proof.
  intros d x. unfold msg_marshal. cbn [app]. rewrite set_length_marshal. set (e := encoder _).
  rewrite app_length, Nat2N.inj_add. pose proof (h2_marshal_length (with_length (msg_header x) ((hdr_size (msg_header x) + nlen e) mod 65536))) as M.
  unfold nlen in M at 1. rewrite M. replace (hdr_size (with_length (msg_header x) ((hdr_size (msg_header x) + nlen e) mod 65536))) with (hdr_size (msg_header x)) by reflexivity.
  fold (nlen e). replace (4 + hdr_size (msg_header x) + nlen e - 4) with (hdr_size (msg_header x) + nlen e) by lia.
  unfold declared_length, h2_marshal. cbn [app nth enc16 with_length h2_length].
  pose proof (N.mod_upper_bound (hdr_size (msg_header x) + nlen e) 65536 ltac:(discriminate)). lia.
Qed.
Print Assumptions C32_length_field_wraps.

Lemma nth_set_nth b i j v : i <> j -> nth j (set_nth b i v) 0 = nth j b 0.
Proof. revert i j; induction b; destruct i, j; cbn; intros; try lia; auto. Qed.
Lemma nth_set_length b i : i <> 2%nat -> i <> 3%nat -> nth i (set_msg_length b) 0 = nth i b 0.
Proof. intros. unfold set_msg_length. rewrite !nth_set_nth by auto. reflexivity. Qed.

(* Encoding appends: the buffer keeps its contents and grows by the octets of the message, except that
   octets 3 and 4 of the whole buffer are overwritten. *)
Theorem C15_append_partial : forall d x buffer,
  length (msg_marshal d x buffer) = (length buffer + length (msg_marshal d x []))%nat /\
  (forall i, (i < length buffer)%nat -> i <> 2%nat -> i <> 3%nat -> nth i (msg_marshal d x buffer) 0 = nth i buffer 0) /\
  (forall i, i <> 2%nat -> i <> 3%nat -> (length buffer + i <> 2)%nat -> (length buffer + i <> 3)%nat ->
     nth (length buffer + i) (msg_marshal d x buffer) 0 = nth i (msg_marshal d x []) 0).
Proof.
  intros d x buffer. unfold msg_marshal. set (e := h2_marshal (msg_header x) ++ encoder (tovec d (msg_fields x))).
  change ([] ++ e) with e. split; [|split].
  - unfold set_msg_length. rewrite !set_nth_length, app_length. reflexivity.
  - intros i Hi H2 H3. rewrite nth_set_length by auto. apply app_nth1. exact Hi.
  - intros i H2 H3 H4 H5. rewrite !nth_set_length by auto. rewrite app_nth2 by lia. f_equal. lia.
Qed.
Print Assumptions C15_append_partial.

(* Into a buffer that holds four octets or more, encoding any message destroys two of them and leaves the
   length field of the message unset: the buffer ends in the header as the caller filled it. *)
Theorem C15_append_refuted : forall d x a b c e rest,
  msg_marshal d x (a :: b :: c :: e :: rest) =
  let n := N.of_nat (length rest) + 4 + hdr_size (msg_header x) + nlen (encoder (tovec d (msg_fields x))) in
  (a :: b :: (n / 256) mod 256 :: n mod 256 :: rest) ++ h2_marshal (msg_header x) ++ encoder (tovec d (msg_fields x)).
Proof.
  intros. unfold msg_marshal, set_msg_length. cbn zeta.
  assert (E : nlen ((a :: b :: c :: e :: rest) ++ h2_marshal (msg_header x) ++ encoder (tovec d (msg_fields x))) - 4 =
     N.of_nat (length rest) + 4 + hdr_size (msg_header x) + nlen (encoder (tovec d (msg_fields x)))).
  { rewrite !nlen_app, h2_marshal_length. unfold nlen. cbn [length]. lia. }
  rewrite E. set (n := N.of_nat _ + 4 + _ + _). cbn [app set_nth]. f_equal. f_equal. f_equal; [lia|]. f_equal. lia.
Qed.
Print Assumptions C15_append_refuted.

(* ------------------------------------------------------------------------- *)
(* C19 and C20 for messages                                                   *)

(* the octets of a packet that are handed to the IE decoder *)
Definition ie_octets (d : message_def) (b : list N) : list N :=
  match md_start d with
  | Some s => firstn (N.to_nat (declared_length b) + 4 - s) (skipn s b)
  | None => []
  end.

Lemma unmarshal_body d m b :
  (forall s, md_start d = Some s -> N.of_nat s <= declared_length b + 4) ->
  (exists e, msg_unmarshal d m b = Err e) \/ (exists x, msg_unmarshal d m b = Ok x) \/
  (exists h, msg_unmarshal d m b = let? l := decoder m (ie_octets d b) in let? x := fromvec d l in Ok (mkMsg h x)).
Proof.
  intros Hs. unfold msg_unmarshal. pose proof (h2_returns b) as R. destruct (h2_unmarshal b) as [h|e| |] eqn:Hh; try contradiction; [|left; exists e; reflexivity].
  cbn [bind]. destruct (negb _); [left; eauto|]. unfold ie_octets. destruct (md_start d) as [s|]; [|right; left; eauto].
  destruct (h2_fixed b h Hh) as [_ E]. rewrite E. unfold MANDATORY_HDR_LENGTH. specialize (Hs s eq_refl).
  destruct (Nat.leb_spec (N.to_nat (declared_length b) + 4) (length b)); [|left; eauto].
  rewrite slice_ok by lia. right; right. exists h. reflexivity.
Qed.

(* Decoding a packet comes back with a message or an error if its declared length covers the header the
   message expects and no position of its IEs is one of those C20_crash_refuted shows. *)
Theorem C20_message_returns_partial : forall d m b,
  (forall s, md_start d = Some s -> N.of_nat s <= declared_length b + 4) ->
  (forall s, visits m (ie_octets d b) s -> tame s) ->
  (exists x, msg_unmarshal d m b = Ok x) \/ (exists e, msg_unmarshal d m b = Err e).
Proof.
  intros d m b Hs Ht. destruct (unmarshal_body d m b Hs) as [H|[H|[h ->]]]; auto.
  pose proof (decoder_safe m (ie_octets d b) Ht) as R. destruct (decoder m (ie_octets d b)) as [l|e| |]; try contradiction; [|right; exists e; reflexivity].
  cbn [bind]. unfold fromvec. destruct (decide _ _); cbn [bind]; eauto.
Qed.
Print Assumptions C20_message_returns_partial.
Example C20_message_witness : (forall s, md_start md_updatebearerreq = Some s -> N.of_nat s <= declared_length (packet 97 []) + 4) /\
  ie_octets md_updatebearerreq (packet 97 []) = [].
Proof. split; [intros s [= <-]; vm_compute; discriminate|vm_compute; reflexivity]. Qed.

(* Eight octets - a header without TEID - crash the decoding of every message that expects one. *)
Theorem C20_message_crash_refuted : forall d L m, In (d, L) gtpv2_messages -> ~ In (md_name d) without_teid ->
  msg_unmarshal d m [64; md_type d; 0; 4; 0; 0; 1; 0] = Panic.
Proof.
  intros d L m H Hn. pose proof teid_starts as TS. rewrite forallb_forall in TS. specialize (TS _ H). cbn [fst snd] in TS.
  assert (Es : md_start d = Some 12%nat).
  { assert (X : existsb (String.eqb (md_name d)) without_teid = false).
    { destruct (existsb (String.eqb (md_name d)) without_teid) eqn:X; auto. apply in_eqb in X. contradiction. }
    rewrite X in TS. pose proof starts_ok as S. rewrite forallb_forall in S. specialize (S _ H). unfold no_start_no_fields in S. cbn [fst snd] in S.
    destruct (md_start d) as [s|]; [|discriminate]. rewrite orb_true_iff, !Nat.eqb_eq in S. destruct S as [->| ->]; [discriminate|reflexivity]. }
  unfold msg_unmarshal.
  assert (Eh : h2_unmarshal [64; md_type d; 0; 4; 0; 0; 1; 0] = Ok (mkHdr2 (md_type d) false None 4 None 1)) by reflexivity.
  rewrite Eh. cbn [bind h2_msgtype]. rewrite N.eqb_refl. cbn [negb]. rewrite Es. reflexivity.
Qed.
Print Assumptions C20_message_crash_refuted.

(* Decoding a message ends in a debug build, and in a release build if no IE declares more than 65531 octets. *)
Theorem C19_message_terminates_partial : forall d m b,
  (m = Debug \/ forall s, visits m (ie_octets d b) s -> declared s <= 65531) -> msg_unmarshal d m b <> Diverge.
Proof.
  intros d m b H. unfold msg_unmarshal. pose proof (h2_returns b) as R. destruct (h2_unmarshal b) as [h|e| |] eqn:Hh; try contradiction; [|discriminate].
  cbn [bind]. destruct (negb _); [discriminate|]. destruct (md_start d) as [s|] eqn:Es; [|discriminate].
  destruct (_ <=? _)%nat; [|discriminate]. destruct (h2_fixed b h Hh) as [_ E].
  unfold slice. destruct (_ && _); [|discriminate]. cbn [bind]. unfold MANDATORY_HDR_LENGTH. rewrite E.
  pose proof (decoder_halts m (ie_octets d b) H) as D. unfold ie_octets in D. rewrite Es in D. unfold halts in D.
  destruct (decoder m _); try discriminate; [|congruence]. cbn [bind]. unfold fromvec. destruct (decide _ _); discriminate.
Qed.
Print Assumptions C19_message_terminates_partial.

(* ------------------------------------------------------------------------- *)
(* C33, C34                                                                   *)

Definition colliding : list (string * string) := [
  ("PgwRestartNotification", "PgwRestartNotificationAcknowledge"); ("PgwRestartNotificationAcknowledge", "PgwRestartNotification");
  ("ResumeNotification", "StopPagingIndication"); ("StopPagingIndication", "ResumeNotification")]%string.
Lemma types_check : forallb (fun p => forallb (fun q => negb (md_type (fst p) =? md_type (fst q)) || String.eqb (md_name (fst p)) (md_name (fst q))
   || existsb (pair_eqb (md_name (fst p), md_name (fst q))) colliding) gtpv2_messages) gtpv2_messages = true.
Proof. vm_compute. reflexivity. Qed.

(* Two kinds of message with the same type code are the same kind, or one of two pairs. *)
Theorem C33_types_distinct_partial : forall d L d' L', In (d, L) gtpv2_messages -> In (d', L') gtpv2_messages ->
  md_type d = md_type d' -> md_name d = md_name d' \/ In (md_name d, md_name d') colliding.
Proof.
  intros d L d' L' H H' E. pose proof types_check as T. rewrite forallb_forall in T. specialize (T _ H). cbn [fst] in T. rewrite forallb_forall in T.
  specialize (T _ H'). cbn [fst] in T. rewrite E, N.eqb_refl in T. cbn [negb orb] in T. rewrite orb_true_iff in T. destruct T as [T|T].
  - left. apply String.eqb_eq. exact T.
  - right. apply pair_in. exact T.
Qed.
Print Assumptions C33_types_distinct_partial.
(* names identify the kinds *)
Theorem C33_names_distinct : NoDup (map (fun p => md_name (fst p)) gtpv2_messages).
Proof.
  assert (X : forall l : list string, pairwise (fun a b => negb (String.eqb a b)) l = true -> NoDup l).
  { induction l as [|s l IH]; cbn; [constructor|]. rewrite andb_true_iff, forallb_forall. intros [H1 H2]. constructor; auto.
    intros H. apply H1 in H. rewrite String.eqb_refl in H. discriminate. }
  apply X. vm_compute. reflexivity.
Qed.
Print Assumptions C33_names_distinct.
(* The two pairs: a PGW restart notification is accepted as its own acknowledgement being sent, a stop paging
   indication is taken for a resume notification and the other way round. *)
Theorem C33_types_refuted : forall m,
  (exists x, msg_unmarshal md_resumenotification m (packet (md_type md_stoppagingindication) [w_imsi 49]) = Ok x) /\
  (exists x, msg_unmarshal md_stoppagingindication m (packet (md_type md_resumenotification) [w_imsi 49]) = Ok x) /\
  (exists x, msg_unmarshal md_pgwrestartnotificationacknowledge m (packet (md_type md_pgwrestartnotification) [w_cause 16 0]) = Ok x).
Proof. intros [|]; repeat split; eexists; vm_compute; reflexivity. Qed.
Print Assumptions C33_types_refuted.

Definition misassigned : list string := ["DownlinkDataNotification"; "PgwRestartNotification"; "StopPagingIndication"]%string.
(* The type octet written is the one 3GPP assigns to the message, but for three messages. *)
Theorem C34_assigned_types_partial : forall d L x, In (d, L) gtpv2_messages -> h2_msgtype (msg_header x) = md_type d ->
  ~ In (md_name d) misassigned -> In (md_name d, type_octet (msg_marshal d x [])) assigned_types.
Proof.
  intros d L x H E Hn. unfold msg_marshal. cbn [app]. rewrite set_length_marshal. unfold type_octet, h2_marshal. cbn [app nth with_length h2_msgtype]. rewrite E.
  assert (T : forallb (fun p => existsb (String.eqb (md_name (fst p))) misassigned || existsb (fun q => String.eqb (md_name (fst p)) (fst q) && (md_type (fst p) =? snd q)) assigned_types) gtpv2_messages = true) by (vm_compute; reflexivity).
  rewrite forallb_forall in T. specialize (T _ H). cbn [fst] in T. rewrite orb_true_iff in T. destruct T as [T|T].
  - apply in_eqb in T. contradiction.
  - apply existsb_exists in T. destruct T as [[n t] [I T]]. cbn [fst snd] in T. rewrite andb_true_iff, String.eqb_eq, N.eqb_eq in T. destruct T as [-> ->]. exact I.
Qed.
Print Assumptions C34_assigned_types_partial.
Theorem C34_misassigned_refuted :
  (md_type md_downlinkdatanotification = 179 /\ In ("DownlinkDataNotification"%string, 176) assigned_types) /\
  (md_type md_pgwrestartnotification = 180 /\ In ("PgwRestartNotification"%string, 179) assigned_types) /\
  (md_type md_stoppagingindication = 164 /\ In ("StopPagingIndication"%string, 73) assigned_types) /\
  NoDup (map fst assigned_types) /\ NoDup (map snd assigned_types).
Proof.
  split; [split; [reflexivity|listed]|]. split; [split; [reflexivity|listed]|]. split; [split; [reflexivity|listed]|]. split.
  - assert (X : forall l : list string, pairwise (fun a b => negb (String.eqb a b)) l = true -> NoDup l).
    { induction l as [|s l IH]; cbn; [constructor|]. rewrite andb_true_iff, forallb_forall. intros [H1 H2]. constructor; auto.
      intros H. apply H1 in H. rewrite String.eqb_refl in H. discriminate. }
    apply X. vm_compute. reflexivity.
  - assert (X : forall l : list N, pairwise (fun a b => negb (N.eqb a b)) l = true -> NoDup l).
    { induction l as [|s l IH]; cbn; [constructor|]. rewrite andb_true_iff, forallb_forall. intros [H1 H2]. constructor; auto.
      intros H. apply H1 in H. rewrite N.eqb_refl in H. discriminate. }
    apply X. vm_compute. reflexivity.
Qed.
Print Assumptions C34_misassigned_refuted.

(* ------------------------------------------------------------------------- *)
(* C35, C36                                                                   *)

(* Encoding writes the header and then every IE of every field exactly once and nothing else. *)
Theorem C35_every_ie_written : forall d L x, In (d, L) gtpv2_messages -> length (msg_fields x) = length L ->
  exists l, Permutation l (concat (msg_fields x)) /\
    msg_marshal d x [] = h2_marshal (with_length (msg_header x) (counted x mod 65536)) ++ concat (map ie_marshal l).
Proof.
  intros d L x H Hl. exists (tovec d (msg_fields x)). pose proof (tovec_perm d L (msg_fields x) H Hl) as P. split; [exact P|].
  unfold msg_marshal. cbn [app]. rewrite set_length_marshal. unfold counted.
  change (concat (map ie_marshal (concat (msg_fields x)))) with (encoder (concat (msg_fields x))). rewrite <- (encoder_length_perm _ _ P). reflexivity.
Qed.
Print Assumptions C35_every_ie_written.
Example C35_witness : length (msg_fields w_csr) = length ly_createsessionreq /\ length (concat (msg_fields w_csr)) = 6%nat.
Proof. split; reflexivity. Qed.

(* Every message that comes out of decoding has its fields filled as the layout says: the right IEs, the
   right number and the mandatory ones. *)
Lemma arity_check : forallb (fun p => forallb (fun q => match f_arity (snd q) with
     | One => match f_req (snd q), f_keep (snd q) with
              | Some c, (KeepFirst | KeepLast) => match f_ins (snd q) with [c'] => ins_eqb c c' | _ => false end
              | _, _ => false end
     | Opt => match f_req (snd q), f_keep (snd q) with None, (KeepFirst | KeepLast) => true | _, _ => false end
     | Many => match f_req (snd q), f_keep (snd q) with
               | Some c, KeepAll => existsb (ins_eqb c) (f_ins (snd q))
               | None, KeepAll => true
               | Some c, KeepFirst => match f_ins (snd q) with [c'] => ins_eqb c c' | _ => false end
               | _, _ => false end
     end && forallb (fits (snd q)) (nth (fst q) (md_init (fst p)) [])
         && match nth (fst q) (md_init (fst p)) [] with [] => true | [_] => match f_arity (snd q) with One => true | _ => false end | _ => false end) (numbered (snd p))) gtpv2_messages = true.
Proof. vm_compute. reflexivity. Qed.

Lemma keeps_incl k s e : In e (keeps k s) -> In e s.
Proof.
  destruct k; cbn [keeps]; [| |auto].
  - destruct s; cbn; tauto.
  - intros H. apply in_rev. destruct (rev s); cbn in *; tauto.
Qed.
Lemma keeps_len k s : k <> KeepAll -> (length (keeps k s) <= 1)%nat.
Proof. destruct k; cbn [keeps]; [destruct s; cbn; lia|destruct (rev s); cbn; lia|congruence]. Qed.
Lemma keeps_some k s : s <> [] -> keeps k s <> [].
Proof.
  destruct k; cbn [keeps]; [destruct s; cbn; congruence| |auto]. intros H. destruct (rev s) eqn:E; [|discriminate].
  apply (f_equal (@rev ie)) in E. rewrite rev_involutive in E. cbn in E. congruence.
Qed.

Lemma missing_dec f l c : f_req f = Some c -> missing f l \/ exists e, In e l /\ satisfies f c e.
Proof.
  intros Hc. destruct (existsb (fun e => kind_eqb (kind_of e) (f_kind f) && ins_test c (ie_instance e)) l) eqn:X.
  - right. apply existsb_exists in X. destruct X as [e [He X]]. rewrite andb_true_iff, kind_eqb_eq, ins_test_in in X. exists e. split; auto.
  - left. exists c. split; auto. intros e He [K I]. assert (existsb (fun e => kind_eqb (kind_of e) (f_kind f) && ins_test c (ie_instance e)) l = true); [|congruence].
    apply existsb_exists. exists e. split; auto. rewrite andb_true_iff, kind_eqb_eq, ins_test_in. auto.
Qed.

Theorem C36_decoded_conforms : forall d L m b x, In (d, L) gtpv2_messages -> msg_unmarshal d m b = Ok x -> conforms L (msg_fields x).
Proof.
  intros d L m b x H U. destruct (unmarshal_ok_carries d L m b x H U) as [l [_ Hl]].
  pose proof (fromvec_contents d L l _ (mk_good d L H) Hl) as E.
  assert (Hmiss : md_name d <> "IdentificationResponse"%string -> forall f, In f L -> ~ missing f l).
  { intros Hn. assert (V : ~ In (md_name d) unenforced) by (intros [V|[]]; congruence).
    apply (fromvec_ok_iff d L (mk_good d L H) (mk_flags d L H) (mk_enforces d L H V)). eauto. }
  pose proof arity_check as A. rewrite forallb_forall in A. specialize (A _ H). cbn [fst snd] in A. rewrite forallb_forall in A.
  assert (Q : forall i f, nth_error L i = Some f -> holds f (nth i (contents d L l) [])).
  { intros i f Hf. specialize (A _ (numbered_in _ _ _ Hf)). cbn [fst snd] in A. rewrite !andb_true_iff in A. destruct A as [[A1 A2] A3].
    rewrite (nth_error_nth _ _ _ (contents_nth d L l i f Hf)). set (s := filter (fits f) l).
    assert (Bs : forall e, In e s -> fits f e = true) by (intros e He; apply filter_In in He; apply He).
    rewrite forallb_forall in A2.
    assert (Hb : Forall (belongs f) (or_else (nth i (md_init d) []) (keeps (f_keep f) s))).
    { apply Forall_forall. intros e He. apply fits_belongs. unfold or_else in He.
      destruct (keeps (f_keep f) s) as [|y ys] eqn:Ek; [apply A2; exact He|]. apply Bs. apply (keeps_incl (f_keep f)). rewrite Ek. exact He. }
    (* a required field with a single instance condition is filled *)
    assert (Hreq : forall c, f_req f = Some c -> f_ins f = [c] -> or_else (nth i (md_init d) []) (keeps (f_keep f) s) <> [] ->
              Exists (satisfies f c) (or_else (nth i (md_init d) []) (keeps (f_keep f) s))).
    { intros c Hc Hi Hne. destruct (or_else _ _) as [|e v]; [congruence|]. apply Exists_cons_hd. inversion Hb as [|? ? [K [c' [Ic Hc']]] _]; subst.
      rewrite Hi in Ic. destruct Ic as [->|[]]. split; assumption. }
    assert (Hfull : forall c, f_req f = Some c -> f_ins f = [c] -> nth i (md_init d) [] = [] -> or_else (nth i (md_init d) []) (keeps (f_keep f) s) <> []).
    { intros c Hc Hi Hz. assert (Hd : md_name d <> "IdentificationResponse"%string \/ md_name d = "IdentificationResponse"%string).
      { destruct (String.eqb_spec (md_name d) "IdentificationResponse"); auto. }
      destruct Hd as [Hd|Hd].
      - destruct (missing_dec f l c Hc) as [M|[e [He [K I]]]]; [exfalso; apply (Hmiss Hd f); auto; eapply nth_error_In; exact Hf|].
        assert (In e s). { apply filter_In. split; auto. apply fits_belongs. split; auto. exists c. rewrite Hi. split; [left; reflexivity|exact I]. }
        assert (K2 : keeps (f_keep f) s <> []) by (apply keeps_some; intros Z; rewrite Z in *; contradiction).
        unfold or_else. destruct (keeps (f_keep f) s); congruence.
      - exfalso. assert (X : forallb (fun p => negb (String.eqb (md_name (fst p)) "IdentificationResponse") || forallb (fun q => match f_req (snd q) with Some _ => negb (is_nil (nth (fst q) (md_init (fst p)) [])) | None => true end) (numbered (snd p))) gtpv2_messages = true) by (vm_compute; reflexivity).
        rewrite forallb_forall in X. specialize (X _ H). cbn [fst snd] in X. rewrite Hd, String.eqb_refl in X. cbn [negb orb] in X. rewrite forallb_forall in X.
        specialize (X _ (numbered_in _ _ _ Hf)). cbn [fst snd] in X. rewrite Hc, Hz in X. discriminate. }
    assert (Hlen1 : f_keep f <> KeepAll -> (length (or_else (nth i (md_init d) []) (keeps (f_keep f) s)) <= 1)%nat).
    { intros Hk. pose proof (keeps_len (f_keep f) s Hk) as Q. unfold or_else. destruct (keeps (f_keep f) s); [|exact Q].
      destruct (nth i (md_init d) []) as [|a [|a' t]]; cbn; try lia; discriminate. }
    split; [exact Hb|]. destruct (f_arity f) eqn:Ea.
    - (* One *) destruct (f_req f) as [c|] eqn:Er; [|discriminate]. destruct (f_ins f) as [|c' [|? ?]] eqn:Ei; try (destruct (f_keep f); discriminate).
      assert (c = c') by (apply ins_eqb_eq; destruct (f_keep f); try discriminate; exact A1). subst c'.
      assert (Hk : f_keep f <> KeepAll) by (destruct (f_keep f); discriminate).
      assert (Hne : or_else (nth i (md_init d) []) (keeps (f_keep f) s) <> []).
      { destruct (nth i (md_init d) []) eqn:Z; [apply (Hfull c); auto|]. unfold or_else. destruct (keeps (f_keep f) s); discriminate. }
      split; [|intros ? [= <-]; apply Hreq; auto]. specialize (Hlen1 Hk). destruct (or_else _ _) as [|? [|? ?]]; cbn in *; try lia. congruence.
    - (* Opt *) destruct (f_req f) eqn:Er; [discriminate|]. split; [apply Hlen1; destruct (f_keep f); discriminate|discriminate].
    - (* Many *) split; [exact I|]. intros c Er. rewrite Er in *.
      assert (Z : nth i (md_init d) [] = []) by (destruct (nth i (md_init d) []) as [|? [|? ?]]; try discriminate; reflexivity).
      destruct (f_keep f) eqn:Ek; try discriminate A1.
      + destruct (f_ins f) as [|c' [|? ?]] eqn:Ei; try discriminate A1. apply ins_eqb_eq in A1. subst c'. apply Hreq; auto. apply (Hfull c); auto.
      + rewrite Z in *. cbn [keeps] in *.
        assert (Hd : md_name d <> "IdentificationResponse"%string).
        { intros Hd. assert (X : forallb (fun p => negb (String.eqb (md_name (fst p)) "IdentificationResponse") || forallb (fun q => match f_req (snd q) with Some _ => negb (is_nil (nth (fst q) (md_init (fst p)) [])) | None => true end) (numbered (snd p))) gtpv2_messages = true) by (vm_compute; reflexivity).
          rewrite forallb_forall in X. specialize (X _ H). cbn [fst snd] in X. rewrite Hd, String.eqb_refl in X. cbn [negb orb] in X. rewrite forallb_forall in X.
          specialize (X _ (numbered_in _ _ _ Hf)). cbn [fst snd] in X. rewrite Er, Z in X. discriminate. }
        destruct (missing_dec f l c Er) as [M|[e [He [K I]]]]; [exfalso; apply (Hmiss Hd f); auto; eapply nth_error_In; exact Hf|].
        apply Exists_exists. exists e. split; [|split; assumption].
        assert (In e s); [|destruct s; [contradiction|exact H0]].
        apply filter_In. split; auto. apply fits_belongs. split; auto. exists c. split; [|exact I].
        apply existsb_exists in A1. destruct A1 as [c' [I' A1]]. apply ins_eqb_eq in A1. subst c'. exact I'. }
  rewrite E. clear - Q. assert (HL : length (contents d L l) = length L) by (unfold contents, numbered; rewrite map_length, combine_length, seq_length; lia).
  revert Q HL. generalize (contents d L l). induction L as [|f L IH]; intros [|v x] Q HL; try discriminate; constructor.
  - exact (Q 0%nat f eq_refl).
  - apply IH; [|cbn in HL; lia]. intros i g Hg. exact (Q (S i) g Hg).
Qed.
Print Assumptions C36_decoded_conforms.
