(* V2ForwardC.v - received elements and groups of elements, encoded again, are well formed: the elements of
   the catalogue, and then sequences of them. *)
From Verif Require Import BaseFacts V2Forward V2ForwardSpec V2ForwardA V2ForwardB V2DecSpec V2DecFacts V2ListSpec.
Local Open Scope N_scope.

Definition kept (e : ie) : Prop := fit_for survives e -> ie_wf (again e) /\ routed (again e).

(* ------------------------------------------------------------------------- *)
(* Encoding does not look at the lengths *)

Lemma many_again {A} (f : A -> list N) g l : (forall x, f (g x) = f x) -> many_enc f (map g l) = many_enc f l.
Proof. intros H. unfold many_enc. rewrite map_map. f_equal. apply map_ext, H. Qed.
Lemma opt_again {A} (f : A -> list N) g o : (forall x, f (g x) = f x) -> opt_enc f (option_map g o) = opt_enc f o.
Proof. intros H. destruct o; [apply H|reflexivity]. Qed.
Lemma list_again {A} (f : A -> list N) g o :
  (forall x, f (g x) = f x) -> many_enc f (opt_list (option_map (map g) o)) = many_enc f (opt_list o).
Proof. intros H. destruct o; [apply many_again, H|reflexivity]. Qed.
Lemma marshal_again {A} T (value : A -> list N) (c : Tliv A -> ie) f x :
  (forall v, value (f v) = value v) -> marshal_ie T value (true_lengths c f x) = marshal_ie T value x.
Proof. intros H. unfold marshal_ie, true_lengths, true_length. cbn [ie_v ie_t ie_ins ie_length]. rewrite H. reflexivity. Qed.

Lemma LoadControl_same v : LoadControl_value (LoadControl_again v) = LoadControl_value v.
Proof.
  unfold LoadControl_value, LoadControl_again. cbn [lc_sqn lc_metric lc_list oc_sqn oc_metric oc_validity oc_list re_user_id re_ue_ip p5_flows p5_abrs
    pw_fqdns pw_ips pw_fqcsid pw_groupids sf_apn sf_ebi sf_scef bc_ebi bc_cause bc_tft bc_fteids bc_qos bc_charging bc_flags bc_pco bc_apco
    bc_epco bc_loss bc_ran bc_bss bc_ti vx_auth vx_brs vx_qos pn_apn pn_restriction pn_selection pn_ipv4 pn_ipv6 pn_ebi pn_pgw pn_node_name
    pn_bearers pn_ambr pn_charging pn_reporting pn_csg pn_henb pn_indication pn_spi pn_report_flags pn_home pn_praa pn_wlan pn_remotes
    pn_pdn_type pn_compr pn_change pn_policy].
  rewrite ?list_again, ?many_again, ?opt_again; try reflexivity; intros; apply marshal_again; idtac.
Qed.
Lemma OverloadControlInfo_same v : OverloadControlInfo_value (OverloadControlInfo_again v) = OverloadControlInfo_value v.
Proof.
  unfold OverloadControlInfo_value, OverloadControlInfo_again. cbn [lc_sqn lc_metric lc_list oc_sqn oc_metric oc_validity oc_list re_user_id re_ue_ip p5_flows p5_abrs
    pw_fqdns pw_ips pw_fqcsid pw_groupids sf_apn sf_ebi sf_scef bc_ebi bc_cause bc_tft bc_fteids bc_qos bc_charging bc_flags bc_pco bc_apco
    bc_epco bc_loss bc_ran bc_bss bc_ti vx_auth vx_brs vx_qos pn_apn pn_restriction pn_selection pn_ipv4 pn_ipv6 pn_ebi pn_pgw pn_node_name
    pn_bearers pn_ambr pn_charging pn_reporting pn_csg pn_henb pn_indication pn_spi pn_report_flags pn_home pn_praa pn_wlan pn_remotes
    pn_pdn_type pn_compr pn_change pn_policy].
  rewrite ?list_again, ?many_again, ?opt_again; try reflexivity; intros; apply marshal_again; idtac.
Qed.
Lemma RemoteUeContext_same v : RemoteUeContext_value (RemoteUeContext_again v) = RemoteUeContext_value v.
Proof.
  unfold RemoteUeContext_value, RemoteUeContext_again. cbn [lc_sqn lc_metric lc_list oc_sqn oc_metric oc_validity oc_list re_user_id re_ue_ip p5_flows p5_abrs
    pw_fqdns pw_ips pw_fqcsid pw_groupids sf_apn sf_ebi sf_scef bc_ebi bc_cause bc_tft bc_fteids bc_qos bc_charging bc_flags bc_pco bc_apco
    bc_epco bc_loss bc_ran bc_bss bc_ti vx_auth vx_brs vx_qos pn_apn pn_restriction pn_selection pn_ipv4 pn_ipv6 pn_ebi pn_pgw pn_node_name
    pn_bearers pn_ambr pn_charging pn_reporting pn_csg pn_henb pn_indication pn_spi pn_report_flags pn_home pn_praa pn_wlan pn_remotes
    pn_pdn_type pn_compr pn_change pn_policy].
  rewrite ?list_again, ?many_again, ?opt_again; try reflexivity; intros; apply marshal_again; idtac.
Qed.
Lemma PC5QosParameters_same v : PC5QosParameters_value (PC5QosParameters_again v) = PC5QosParameters_value v.
Proof.
  unfold PC5QosParameters_value, PC5QosParameters_again. cbn [lc_sqn lc_metric lc_list oc_sqn oc_metric oc_validity oc_list re_user_id re_ue_ip p5_flows p5_abrs
    pw_fqdns pw_ips pw_fqcsid pw_groupids sf_apn sf_ebi sf_scef bc_ebi bc_cause bc_tft bc_fteids bc_qos bc_charging bc_flags bc_pco bc_apco
    bc_epco bc_loss bc_ran bc_bss bc_ti vx_auth vx_brs vx_qos pn_apn pn_restriction pn_selection pn_ipv4 pn_ipv6 pn_ebi pn_pgw pn_node_name
    pn_bearers pn_ambr pn_charging pn_reporting pn_csg pn_henb pn_indication pn_spi pn_report_flags pn_home pn_praa pn_wlan pn_remotes
    pn_pdn_type pn_compr pn_change pn_policy].
  rewrite ?list_again, ?many_again, ?opt_again; try reflexivity; intros; apply marshal_again; idtac.
Qed.
Lemma PgwChangeInfo_same v : PgwChangeInfo_value (PgwChangeInfo_again v) = PgwChangeInfo_value v.
Proof.
  unfold PgwChangeInfo_value, PgwChangeInfo_again. cbn [lc_sqn lc_metric lc_list oc_sqn oc_metric oc_validity oc_list re_user_id re_ue_ip p5_flows p5_abrs
    pw_fqdns pw_ips pw_fqcsid pw_groupids sf_apn sf_ebi sf_scef bc_ebi bc_cause bc_tft bc_fteids bc_qos bc_charging bc_flags bc_pco bc_apco
    bc_epco bc_loss bc_ran bc_bss bc_ti vx_auth vx_brs vx_qos pn_apn pn_restriction pn_selection pn_ipv4 pn_ipv6 pn_ebi pn_pgw pn_node_name
    pn_bearers pn_ambr pn_charging pn_reporting pn_csg pn_henb pn_indication pn_spi pn_report_flags pn_home pn_praa pn_wlan pn_remotes
    pn_pdn_type pn_compr pn_change pn_policy].
  rewrite ?list_again, ?many_again, ?opt_again; try reflexivity; intros; apply marshal_again; idtac.
Qed.
Lemma ScefPdnConnections_same v : ScefPdnConnections_value (ScefPdnConnections_again v) = ScefPdnConnections_value v.
Proof.
  unfold ScefPdnConnections_value, ScefPdnConnections_again. cbn [lc_sqn lc_metric lc_list oc_sqn oc_metric oc_validity oc_list re_user_id re_ue_ip p5_flows p5_abrs
    pw_fqdns pw_ips pw_fqcsid pw_groupids sf_apn sf_ebi sf_scef bc_ebi bc_cause bc_tft bc_fteids bc_qos bc_charging bc_flags bc_pco bc_apco
    bc_epco bc_loss bc_ran bc_bss bc_ti vx_auth vx_brs vx_qos pn_apn pn_restriction pn_selection pn_ipv4 pn_ipv6 pn_ebi pn_pgw pn_node_name
    pn_bearers pn_ambr pn_charging pn_reporting pn_csg pn_henb pn_indication pn_spi pn_report_flags pn_home pn_praa pn_wlan pn_remotes
    pn_pdn_type pn_compr pn_change pn_policy].
  rewrite ?list_again, ?many_again, ?opt_again; try reflexivity; intros; apply marshal_again; idtac.
Qed.
Lemma BearerContext_same v : BearerContext_value (BearerContext_again v) = BearerContext_value v.
Proof.
  unfold BearerContext_value, BearerContext_again. cbn [lc_sqn lc_metric lc_list oc_sqn oc_metric oc_validity oc_list re_user_id re_ue_ip p5_flows p5_abrs
    pw_fqdns pw_ips pw_fqcsid pw_groupids sf_apn sf_ebi sf_scef bc_ebi bc_cause bc_tft bc_fteids bc_qos bc_charging bc_flags bc_pco bc_apco
    bc_epco bc_loss bc_ran bc_bss bc_ti vx_auth vx_brs vx_qos pn_apn pn_restriction pn_selection pn_ipv4 pn_ipv6 pn_ebi pn_pgw pn_node_name
    pn_bearers pn_ambr pn_charging pn_reporting pn_csg pn_henb pn_indication pn_spi pn_report_flags pn_home pn_praa pn_wlan pn_remotes
    pn_pdn_type pn_compr pn_change pn_policy].
  rewrite ?list_again, ?many_again, ?opt_again; try reflexivity; intros; apply marshal_again; idtac.
Qed.
Lemma V2xInformation_same v : V2xInformation_value (V2xInformation_again v) = V2xInformation_value v.
Proof.
  unfold V2xInformation_value, V2xInformation_again. cbn [lc_sqn lc_metric lc_list oc_sqn oc_metric oc_validity oc_list re_user_id re_ue_ip p5_flows p5_abrs
    pw_fqdns pw_ips pw_fqcsid pw_groupids sf_apn sf_ebi sf_scef bc_ebi bc_cause bc_tft bc_fteids bc_qos bc_charging bc_flags bc_pco bc_apco
    bc_epco bc_loss bc_ran bc_bss bc_ti vx_auth vx_brs vx_qos pn_apn pn_restriction pn_selection pn_ipv4 pn_ipv6 pn_ebi pn_pgw pn_node_name
    pn_bearers pn_ambr pn_charging pn_reporting pn_csg pn_henb pn_indication pn_spi pn_report_flags pn_home pn_praa pn_wlan pn_remotes
    pn_pdn_type pn_compr pn_change pn_policy].
  rewrite ?list_again, ?many_again, ?opt_again; try reflexivity; intros; apply marshal_again; apply PC5QosParameters_same.
Qed.
Lemma PdnConnections_same v : PdnConnections_value (PdnConnections_again v) = PdnConnections_value v.
Proof.
  unfold PdnConnections_value, PdnConnections_again. cbn [lc_sqn lc_metric lc_list oc_sqn oc_metric oc_validity oc_list re_user_id re_ue_ip p5_flows p5_abrs
    pw_fqdns pw_ips pw_fqcsid pw_groupids sf_apn sf_ebi sf_scef bc_ebi bc_cause bc_tft bc_fteids bc_qos bc_charging bc_flags bc_pco bc_apco
    bc_epco bc_loss bc_ran bc_bss bc_ti vx_auth vx_brs vx_qos pn_apn pn_restriction pn_selection pn_ipv4 pn_ipv6 pn_ebi pn_pgw pn_node_name
    pn_bearers pn_ambr pn_charging pn_reporting pn_csg pn_henb pn_indication pn_spi pn_report_flags pn_home pn_praa pn_wlan pn_remotes
    pn_pdn_type pn_compr pn_change pn_policy].
  rewrite ?list_again, ?many_again, ?opt_again; try reflexivity; intros; apply marshal_again; first [apply BearerContext_same | apply RemoteUeContext_same].
Qed.

Theorem marshal_of_again e : ie_marshal (again e) = ie_marshal e.
Proof.
  destruct e as [];
  try reflexivity;
  try (apply marshal_again;
    first [apply LoadControl_same | apply OverloadControlInfo_same | apply RemoteUeContext_same | apply PC5QosParameters_same
      | apply PgwChangeInfo_same | apply ScefPdnConnections_same | apply BearerContext_same | apply V2xInformation_same | apply PdnConnections_same]).
  match goal with x : MmContext |- _ => destruct x; reflexivity end.
Qed.

(* ------------------------------------------------------------------------- *)
(* Members of groups *)

Lemma every_from {A} (sel : ie -> option (Tliv A)) ok l x : In x (every sel ok l) -> exists e, In e l /\ sel e = Some x /\ ok (ie_ins x) = true.
Proof.
  unfold every, instances. intros H. apply filter_In in H. destruct H as [H O]. unfold members in H. apply in_concat in H.
  destruct H as (y & H & I). apply in_map_iff in H. destruct H as (e & <- & J). exists e. destruct (sel e) as [z|] eqn:E.
  - destruct I as [<-|[]]. auto.
  - destruct I.
Qed.
Lemma oldest_from {A} (sel : ie -> option (Tliv A)) ok l x : oldest sel ok l = Some x -> In x (every sel ok l).
Proof. unfold oldest. destruct (every sel ok l); [discriminate|]. intros H. injection H as ->. left. reflexivity. Qed.
Lemma newest_from {A} (sel : ie -> option (Tliv A)) ok l x : newest sel ok l = Some x -> In x (every sel ok l).
Proof. unfold newest. intros H. apply in_rev. destruct (rev (every sel ok l)); [discriminate|]. injection H as ->. left. reflexivity. Qed.

(* [c] makes the element, [tl] corrects its lengths *)
Definition kind_ok {A} (c : Tliv A -> ie) (tl : Tliv A -> Tliv A) (sel : ie -> option (Tliv A)) (wf : Tliv A -> Prop) : Prop :=
  (forall e x, sel e = Some x -> e = c x) /\ (forall x, ie_wf (again (c x)) -> wf (tl x)) /\ (forall x, ie_ins (tl x) = ie_ins x).
Section Members.
  Context {A : Type} (c : Tliv A -> ie) (tl : Tliv A -> Tliv A) (sel : ie -> option (Tliv A)) (wf : Tliv A -> Prop) (l : list ie).
  Context (K : kind_ok c tl sel wf) (F : Forall kept l).
  Lemma one_kept ok x : In x (every sel ok l) -> fit_for survives (c x) -> mem wf ok (tl x).
  Proof using K F.
    intros H S. destruct K as (K1 & K2 & K3). apply every_from in H. destruct H as (e & I & E & O). apply K1 in E. subst e.
    destruct (proj1 (Forall_forall _ _) F _ I S) as [W _]. split; [apply K2, W|rewrite K3; exact O].
  Qed.
  Lemma every_kept ok : Forall (fun x => fit_for survives (c x)) (every sel ok l) -> Forall (mem wf ok) (map tl (every sel ok l)).
  Proof using K F.
    intros H. apply Forall_map, Forall_forall. intros x I. apply one_kept; [exact I|]. rewrite Forall_forall in H. apply H, I.
  Qed.
  Lemma oldest_kept ok : given (fun x => fit_for survives (c x)) (oldest sel ok l) -> V2OkF.opt_ok (mem wf ok) (option_map tl (oldest sel ok l)).
  Proof using K F.
    destruct (oldest sel ok l) as [x|] eqn:E; [|intros _; exact I]. intros H. apply one_kept; [apply oldest_from, E|exact H].
  Qed.
  Lemma newest_kept ok : given (fun x => fit_for survives (c x)) (newest sel ok l) -> V2OkF.opt_ok (mem wf ok) (option_map tl (newest sel ok l)).
  Proof using K F.
    destruct (newest sel ok l) as [x|] eqn:E; [|intros _; exact I]. intros H. apply one_kept; [apply newest_from, E|exact H].
  Qed.
  Lemma newest_or ok d : (fit_for survives (c d) -> mem wf ok (tl d)) ->
    fit_for survives (c (or_else d (newest sel ok l))) -> mem wf ok (tl (or_else d (newest sel ok l))).
  Proof using K F.
    intros D. destruct (newest sel ok l) as [x|] eqn:E; [|exact D]. intros H. apply one_kept; [apply newest_from, E|exact H].
  Qed.
  Lemma oldest_or ok d : (fit_for survives (c d) -> mem wf ok (tl d)) ->
    fit_for survives (c (or_else d (oldest sel ok l))) -> mem wf ok (tl (or_else d (oldest sel ok l))).
  Proof using K F.
    intros D. destruct (oldest sel ok l) as [x|] eqn:E; [|exact D]. intros H. apply one_kept; [apply oldest_from, E|exact H].
  Qed.
  Lemma newest_single ok : given (Forall (fun x => fit_for survives (c x))) (option_map (fun x => [x]) (newest sel ok l)) ->
    option_map (map tl) (option_map (fun x => [x]) (newest sel ok l)) = None \/
    exists k, option_map (map tl) (option_map (fun x => [x]) (newest sel ok l)) = Some [k] /\ mem wf ok k.
  Proof using K F.
    destruct (newest sel ok l) as [x|] eqn:E; [|left; reflexivity]. intros H. right. exists (tl x). split; [reflexivity|].
    apply one_kept; [apply newest_from, E|]. cbn in H. apply Forall_inv in H. exact H.
  Qed.
End Members.
Lemma kind_plain {A} (c : Tliv A -> ie) sel (wf : Tliv A -> Prop) :
  (forall e x, sel e = Some x -> e = c x) -> (forall x, ie_wf (again (c x)) -> wf (true_length c x)) -> kind_ok c (true_length c) sel wf.
Proof. intros H1 H2. split; [exact H1|split; [exact H2|reflexivity]]. Qed.
Lemma kind_group {A} (c : Tliv A -> ie) f sel (wf : Tliv A -> Prop) :
  (forall e x, sel e = Some x -> e = c x) -> (forall x, ie_wf (again (c x)) -> wf (true_lengths c f x)) -> kind_ok c (true_lengths c f) sel wf.
Proof. intros H1 H2. split; [exact H1|split; [exact H2|reflexivity]]. Qed.
Ltac kind := first [apply kind_plain; [intros e x H; destruct e; try discriminate H; injection H as ->; reflexivity|intros x H; exact H]
                   |apply kind_group; [intros e x H; destruct e; try discriminate H; injection H as ->; reflexivity|intros x H; exact H]].

Lemma group_again {A} (c : Tliv A -> ie) T value (ok : A -> Prop) f S i :
  (forall x, ie_marshal (c x) = marshal_ie T value x) -> (forall x, ie_instance (c x) = ie_ins x) -> (forall v, value (f v) = value v) ->
  ie_t i = T -> ok (f (ie_v i)) -> fit_for S (c i) -> wf_ie T value ok (true_lengths c f i).
Proof.
  intros M I V Ht Ho (F1 & F2 & F3). unfold true_lengths. apply (wf_again c T value ok (fun _ => True)).
  - intros x. rewrite M. apply nlen_marshal.
  - exact I.
  - exact Ht.
  - exact Ho.
  - split; [|split; [|exact Logic.I]].
    + rewrite I in *. exact F1.
    + rewrite M in *. unfold marshal_ie in *. cbn [ie_v ie_t ie_ins ie_length]. rewrite V. exact F2.
Qed.


Lemma map_some {A B} (f : A -> B) l : l <> [] -> map f l <> [].
Proof. destruct l; [contradiction|discriminate]. Qed.
(* the members that stand for missing ones *)
Ltac octet := vm_compute; repeat match goal with |- _ /\ _ => apply conj end; try reflexivity; try discriminate; try (intros; discriminate).
Lemma ebi_default : mem Ebi_wf (ins_is 0) (true_length IE_Ebi no_ebi). Proof. octet. Qed.
Lemma apn_default ok : ok 0 = true -> mem Apn_wf ok (true_length IE_Apn no_apn). Proof. intros H. apply conj; [|exact H]. octet. all: repeat constructor. Qed.
Lemma fteid_default : mem Fteid_wf (ins_is 0) (true_length IE_Fteid no_fteid). Proof. octet. Qed.
Lemma ambr_default : mem Ambr_wf (ins_is 0) (true_length IE_ApnAmbr no_ambr). Proof. octet. Qed.
Lemma sqn_default : mem Sqn_wf ins_any (true_length IE_Sqn no_sqn). Proof. octet. Qed.
Lemma metric_default : mem Metric_wf ins_any (true_length IE_Metric no_metric). Proof. octet. Qed.
Lemma timer_default : mem EpcTimer_wf ins_any (true_length IE_EpcTimer no_timer). Proof. octet. left. reflexivity. Qed.
Lemma user_default : mem RemoteUserId_wf ins_any (true_length IE_RemoteUserId no_user). Proof. octet. all: repeat constructor. Qed.
Lemma node_default : mem NodeIdentifier_wf (ins_is 0) (true_length IE_NodeIdentifier no_node). Proof. octet. all: repeat constructor. Qed.
Ltac default := intros _; first [exact ebi_default | apply apn_default; reflexivity | exact fteid_default | exact ambr_default | exact sqn_default
  | exact metric_default | exact timer_default | exact user_default | exact node_default].
Ltac member F := first
  [ eapply every_kept; [kind|exact F|assumption] | eapply oldest_kept; [kind|exact F|assumption] | eapply newest_kept; [kind|exact F|assumption]
  | eapply newest_or; [kind|exact F|default|assumption] | eapply oldest_or; [kind|exact F|default|assumption]
  | eapply newest_single; [kind|exact F|assumption] | reflexivity | assumption | apply map_some; assumption
  | match type of F with Forall _ ?l => change (PgwChangeInfo_value (PgwChangeInfo_again (PgwChangeInfo_holds l)) <> []); rewrite PgwChangeInfo_same; assumption end
  | match type of F with Forall _ ?l => change (V2xInformation_value (V2xInformation_again (V2xInformation_holds l)) <> []); rewrite V2xInformation_same; assumption end ].
Ltac members S F := repeat match type of S with _ /\ _ => let H := fresh "S" in destruct S as [H S] end;
  repeat (match goal with |- _ /\ _ => apply conj end; [solve [member F]|]); try solve [member F].

Lemma LoadControl_kept n k l : Forall kept l -> kept (IE_LoadControlInfo (mkIe 181 n k (LoadControl_holds l))).
Proof.
  intros F S. split; [|exact I]. cbn [again ie_wf]. unfold LoadControl_wf.
  apply (group_again IE_LoadControlInfo 181 LoadControl_value LoadControl_ok LoadControl_again survives); [reflexivity|reflexivity|apply LoadControl_same|reflexivity| |exact S].
  destruct S as (_ & _ & S). cbn [survives group_survives ie_v LoadControl_holds] in S |- *. unfold LoadControl_ok, LoadControl_again, LoadControl_holds in *.
  cbn [ie_v lc_sqn lc_metric lc_list oc_sqn oc_metric oc_validity oc_list re_user_id re_ue_ip p5_flows p5_abrs
    pw_fqdns pw_ips pw_fqcsid pw_groupids sf_apn sf_ebi sf_scef bc_ebi bc_cause bc_tft bc_fteids bc_qos bc_charging bc_flags bc_pco bc_apco
    bc_epco bc_loss bc_ran bc_bss bc_ti vx_auth vx_brs vx_qos pn_apn pn_restriction pn_selection pn_ipv4 pn_ipv6 pn_ebi pn_pgw pn_node_name
    pn_bearers pn_ambr pn_charging pn_reporting pn_csg pn_henb pn_indication pn_spi pn_report_flags pn_home pn_praa pn_wlan pn_remotes
    pn_pdn_type pn_compr pn_change pn_policy] in *.
  members S F.
Qed.
Lemma OverloadControlInfo_kept n k l : Forall kept l -> kept (IE_OverloadControlInfo (mkIe 180 n k (OverloadControlInfo_holds l))).
Proof.
  intros F S. split; [|exact I]. cbn [again ie_wf]. unfold OverloadControlInfo_wf.
  apply (group_again IE_OverloadControlInfo 180 OverloadControlInfo_value OverloadControlInfo_ok OverloadControlInfo_again survives); [reflexivity|reflexivity|apply OverloadControlInfo_same|reflexivity| |exact S].
  destruct S as (_ & _ & S). cbn [survives group_survives ie_v OverloadControlInfo_holds] in S |- *. unfold OverloadControlInfo_ok, OverloadControlInfo_again, OverloadControlInfo_holds in *.
  cbn [ie_v lc_sqn lc_metric lc_list oc_sqn oc_metric oc_validity oc_list re_user_id re_ue_ip p5_flows p5_abrs
    pw_fqdns pw_ips pw_fqcsid pw_groupids sf_apn sf_ebi sf_scef bc_ebi bc_cause bc_tft bc_fteids bc_qos bc_charging bc_flags bc_pco bc_apco
    bc_epco bc_loss bc_ran bc_bss bc_ti vx_auth vx_brs vx_qos pn_apn pn_restriction pn_selection pn_ipv4 pn_ipv6 pn_ebi pn_pgw pn_node_name
    pn_bearers pn_ambr pn_charging pn_reporting pn_csg pn_henb pn_indication pn_spi pn_report_flags pn_home pn_praa pn_wlan pn_remotes
    pn_pdn_type pn_compr pn_change pn_policy] in *.
  members S F.
Qed.
Lemma RemoteUeContext_kept n k l : Forall kept l -> kept (IE_RemoteUeContext (mkIe 191 n k (RemoteUeContext_holds l))).
Proof.
  intros F S. split; [|exact I]. cbn [again ie_wf]. unfold RemoteUeContext_wf.
  apply (group_again IE_RemoteUeContext 191 RemoteUeContext_value RemoteUeContext_ok RemoteUeContext_again survives); [reflexivity|reflexivity|apply RemoteUeContext_same|reflexivity| |exact S].
  destruct S as (_ & _ & S). cbn [survives group_survives ie_v RemoteUeContext_holds] in S |- *. unfold RemoteUeContext_ok, RemoteUeContext_again, RemoteUeContext_holds in *.
  cbn [ie_v lc_sqn lc_metric lc_list oc_sqn oc_metric oc_validity oc_list re_user_id re_ue_ip p5_flows p5_abrs
    pw_fqdns pw_ips pw_fqcsid pw_groupids sf_apn sf_ebi sf_scef bc_ebi bc_cause bc_tft bc_fteids bc_qos bc_charging bc_flags bc_pco bc_apco
    bc_epco bc_loss bc_ran bc_bss bc_ti vx_auth vx_brs vx_qos pn_apn pn_restriction pn_selection pn_ipv4 pn_ipv6 pn_ebi pn_pgw pn_node_name
    pn_bearers pn_ambr pn_charging pn_reporting pn_csg pn_henb pn_indication pn_spi pn_report_flags pn_home pn_praa pn_wlan pn_remotes
    pn_pdn_type pn_compr pn_change pn_policy] in *.
  members S F.
Qed.
Lemma PC5QosParameters_kept n k l : every as_PC5QosFlow (only 0) l <> [] -> Forall kept l -> kept (IE_PC5QosParameters (mkIe 209 n k (PC5QosParameters_holds l))).
Proof.
  intros N F S. split; [|exact I]. cbn [again ie_wf]. unfold PC5QosParameters_wf.
  apply (group_again IE_PC5QosParameters 209 PC5QosParameters_value PC5QosParameters_ok PC5QosParameters_again survives); [reflexivity|reflexivity|apply PC5QosParameters_same|reflexivity| |exact S].
  destruct S as (_ & _ & S). cbn [survives group_survives ie_v PC5QosParameters_holds] in S |- *. unfold PC5QosParameters_ok, PC5QosParameters_again, PC5QosParameters_holds in *.
  cbn [ie_v lc_sqn lc_metric lc_list oc_sqn oc_metric oc_validity oc_list re_user_id re_ue_ip p5_flows p5_abrs
    pw_fqdns pw_ips pw_fqcsid pw_groupids sf_apn sf_ebi sf_scef bc_ebi bc_cause bc_tft bc_fteids bc_qos bc_charging bc_flags bc_pco bc_apco
    bc_epco bc_loss bc_ran bc_bss bc_ti vx_auth vx_brs vx_qos pn_apn pn_restriction pn_selection pn_ipv4 pn_ipv6 pn_ebi pn_pgw pn_node_name
    pn_bearers pn_ambr pn_charging pn_reporting pn_csg pn_henb pn_indication pn_spi pn_report_flags pn_home pn_praa pn_wlan pn_remotes
    pn_pdn_type pn_compr pn_change pn_policy] in *.
  members S F.
Qed.
Lemma PgwChangeInfo_kept n k l : Forall kept l -> kept (IE_PgwChangeInfo (mkIe 214 n k (PgwChangeInfo_holds l))).
Proof.
  intros F S. split; [|exact I]. cbn [again ie_wf]. unfold PgwChangeInfo_wf.
  apply (group_again IE_PgwChangeInfo 214 PgwChangeInfo_value PgwChangeInfo_ok PgwChangeInfo_again survives); [reflexivity|reflexivity|apply PgwChangeInfo_same|reflexivity| |exact S].
  destruct S as (_ & _ & S). cbn [survives group_survives ie_v PgwChangeInfo_holds] in S |- *. unfold PgwChangeInfo_ok, PgwChangeInfo_again, PgwChangeInfo_holds in *.
  cbn [ie_v lc_sqn lc_metric lc_list oc_sqn oc_metric oc_validity oc_list re_user_id re_ue_ip p5_flows p5_abrs
    pw_fqdns pw_ips pw_fqcsid pw_groupids sf_apn sf_ebi sf_scef bc_ebi bc_cause bc_tft bc_fteids bc_qos bc_charging bc_flags bc_pco bc_apco
    bc_epco bc_loss bc_ran bc_bss bc_ti vx_auth vx_brs vx_qos pn_apn pn_restriction pn_selection pn_ipv4 pn_ipv6 pn_ebi pn_pgw pn_node_name
    pn_bearers pn_ambr pn_charging pn_reporting pn_csg pn_henb pn_indication pn_spi pn_report_flags pn_home pn_praa pn_wlan pn_remotes
    pn_pdn_type pn_compr pn_change pn_policy] in *.
  members S F.
Qed.
Lemma ScefPdnConnections_kept n k l : Forall kept l -> kept (IE_ScefPdnConnections (mkIe 195 n k (ScefPdnConnections_holds l))).
Proof.
  intros F S. split; [|exact I]. cbn [again ie_wf]. unfold ScefPdnConnections_wf.
  apply (group_again IE_ScefPdnConnections 195 ScefPdnConnections_value ScefPdnConnections_ok ScefPdnConnections_again survives); [reflexivity|reflexivity|apply ScefPdnConnections_same|reflexivity| |exact S].
  destruct S as (_ & _ & S). cbn [survives group_survives ie_v ScefPdnConnections_holds] in S |- *. unfold ScefPdnConnections_ok, ScefPdnConnections_again, ScefPdnConnections_holds in *.
  cbn [ie_v lc_sqn lc_metric lc_list oc_sqn oc_metric oc_validity oc_list re_user_id re_ue_ip p5_flows p5_abrs
    pw_fqdns pw_ips pw_fqcsid pw_groupids sf_apn sf_ebi sf_scef bc_ebi bc_cause bc_tft bc_fteids bc_qos bc_charging bc_flags bc_pco bc_apco
    bc_epco bc_loss bc_ran bc_bss bc_ti vx_auth vx_brs vx_qos pn_apn pn_restriction pn_selection pn_ipv4 pn_ipv6 pn_ebi pn_pgw pn_node_name
    pn_bearers pn_ambr pn_charging pn_reporting pn_csg pn_henb pn_indication pn_spi pn_report_flags pn_home pn_praa pn_wlan pn_remotes
    pn_pdn_type pn_compr pn_change pn_policy] in *.
  members S F.
Qed.
Lemma BearerContext_kept n k l : Forall kept l -> kept (IE_BearerContext (mkIe 93 n k (BearerContext_holds l))).
Proof.
  intros F S. split; [|exact I]. cbn [again ie_wf]. unfold BearerContext_wf.
  apply (group_again IE_BearerContext 93 BearerContext_value BearerContext_ok BearerContext_again survives); [reflexivity|reflexivity|apply BearerContext_same|reflexivity| |exact S].
  destruct S as (_ & _ & S). cbn [survives group_survives ie_v BearerContext_holds] in S |- *. unfold BearerContext_ok, BearerContext_again, BearerContext_holds in *.
  cbn [ie_v lc_sqn lc_metric lc_list oc_sqn oc_metric oc_validity oc_list re_user_id re_ue_ip p5_flows p5_abrs
    pw_fqdns pw_ips pw_fqcsid pw_groupids sf_apn sf_ebi sf_scef bc_ebi bc_cause bc_tft bc_fteids bc_qos bc_charging bc_flags bc_pco bc_apco
    bc_epco bc_loss bc_ran bc_bss bc_ti vx_auth vx_brs vx_qos pn_apn pn_restriction pn_selection pn_ipv4 pn_ipv6 pn_ebi pn_pgw pn_node_name
    pn_bearers pn_ambr pn_charging pn_reporting pn_csg pn_henb pn_indication pn_spi pn_report_flags pn_home pn_praa pn_wlan pn_remotes
    pn_pdn_type pn_compr pn_change pn_policy] in *.
  members S F.
Qed.
Lemma V2xInformation_kept n k l : Forall kept l -> kept (IE_V2xInformation (mkIe 208 n k (V2xInformation_holds l))).
Proof.
  intros F S. split; [|exact I]. cbn [again ie_wf]. unfold V2xInformation_wf.
  apply (group_again IE_V2xInformation 208 V2xInformation_value V2xInformation_ok V2xInformation_again survives); [reflexivity|reflexivity|apply V2xInformation_same|reflexivity| |exact S].
  destruct S as (_ & _ & S). cbn [survives group_survives ie_v V2xInformation_holds] in S |- *. unfold V2xInformation_ok, V2xInformation_again, V2xInformation_holds in *.
  cbn [ie_v lc_sqn lc_metric lc_list oc_sqn oc_metric oc_validity oc_list re_user_id re_ue_ip p5_flows p5_abrs
    pw_fqdns pw_ips pw_fqcsid pw_groupids sf_apn sf_ebi sf_scef bc_ebi bc_cause bc_tft bc_fteids bc_qos bc_charging bc_flags bc_pco bc_apco
    bc_epco bc_loss bc_ran bc_bss bc_ti vx_auth vx_brs vx_qos pn_apn pn_restriction pn_selection pn_ipv4 pn_ipv6 pn_ebi pn_pgw pn_node_name
    pn_bearers pn_ambr pn_charging pn_reporting pn_csg pn_henb pn_indication pn_spi pn_report_flags pn_home pn_praa pn_wlan pn_remotes
    pn_pdn_type pn_compr pn_change pn_policy] in *.
  members S F.
Qed.
Lemma PdnConnections_kept n k l : Forall kept l -> kept (IE_PdnConnections (mkIe 109 n k (PdnConnections_holds l))).
Proof.
  intros F S. split; [|exact I]. cbn [again ie_wf]. unfold PdnConnections_wf.
  apply (group_again IE_PdnConnections 109 PdnConnections_value PdnConnections_ok PdnConnections_again survives); [reflexivity|reflexivity|apply PdnConnections_same|reflexivity| |exact S].
  destruct S as (_ & _ & S). cbn [survives group_survives ie_v PdnConnections_holds] in S |- *. unfold PdnConnections_ok, PdnConnections_again, PdnConnections_holds in *.
  cbn [ie_v lc_sqn lc_metric lc_list oc_sqn oc_metric oc_validity oc_list re_user_id re_ue_ip p5_flows p5_abrs
    pw_fqdns pw_ips pw_fqcsid pw_groupids sf_apn sf_ebi sf_scef bc_ebi bc_cause bc_tft bc_fteids bc_qos bc_charging bc_flags bc_pco bc_apco
    bc_epco bc_loss bc_ran bc_bss bc_ti vx_auth vx_brs vx_qos pn_apn pn_restriction pn_selection pn_ipv4 pn_ipv6 pn_ebi pn_pgw pn_node_name
    pn_bearers pn_ambr pn_charging pn_reporting pn_csg pn_henb pn_indication pn_spi pn_report_flags pn_home pn_praa pn_wlan pn_remotes
    pn_pdn_type pn_compr pn_change pn_policy] in *.
  members S F.
Qed.

(* ------------------------------------------------------------------------- *)
(* The catalogue *)

Definition entry_kept (x : N * (extent * meaning)) : Prop :=
  match snd (snd x) with
  | Plain r => forall s e, bytes s -> r s = Some e -> kept e
  | Group f => forall n k l e, Forall kept l -> f (mkIe (fst x) n k l) = Some e -> kept e
  end.
Lemma plain_kept {A} (c : Tliv A -> ie) (r : list N -> option (Tliv A)) t x :
  (forall y, survives (c y) -> plain_survives (c y)) ->
  (forall s i, bytes s -> r s = Some i -> fit_for plain_survives (c i) -> ie_wf (again (c i))) -> (forall i, routed (again (c i))) ->
  entry_kept (t, (x, plain c r)).
Proof.
  intros P H R. unfold entry_kept, plain. cbn [fst snd]. intros s e B E F. destruct (r s) as [i|] eqn:Ei; [|discriminate E].
  cbn [option_map] in E. injection E as <-. split; [|apply R]. apply (H s); auto. destruct F as (F1 & F2 & F3). split; [exact F1|]. split; [exact F2|].
  apply P, F3.
Qed.
Lemma lost_kept {A} (c : Tliv A -> ie) (r : list N -> option (Tliv A)) t x : (forall y, survives (c y) -> False) -> entry_kept (t, (x, plain c r)).
Proof.
  intros P. unfold entry_kept, plain. cbn [fst snd]. intros s e B E (_ & _ & F). destruct (r s) as [i|] eqn:Ei; [|discriminate E].
  cbn [option_map] in E. injection E as <-. destruct (P _ F).
Qed.
Lemma group_kept {A} (c : Tliv A -> ie) (f : list ie -> A) t x :
  (forall n k l, Forall kept l -> kept (c (mkIe t n k (f l)))) -> entry_kept (t, (x, group c f)).
Proof. intros H. unfold entry_kept, group. cbn [fst snd]. intros n k l e F E. injection E as <-. cbn [ie_t ie_length ie_ins ie_v]. apply H, F. Qed.
Lemma pc5_kept x : entry_kept (209, (x, pc5_group)).
Proof.
  unfold entry_kept, pc5_group. cbn [fst snd]. intros n k l e F E. cbn [ie_t ie_length ie_ins ie_v] in E.
  destruct (every as_PC5QosFlow (only 0) l) eqn:Ef; [discriminate E|]. injection E as <-. apply PC5QosParameters_kept; [rewrite Ef; discriminate|exact F].
Qed.
Ltac pk L := apply plain_kept; [intros y H; exact H|exact L|intros y; exact I].

Lemma catalogue_kept : Forall entry_kept catalogue.
Proof.
  unfold catalogue.
  constructor; [pk Imsi_fwd|].
  constructor; [pk Cause_fwd|].
  constructor; [pk Recovery_fwd|].
  constructor; [pk StnSr_fwd|].
  constructor; [pk SrvccCause_fwd|].
  constructor; [pk Apn_fwd|].
  constructor; [pk Ambr_fwd|].
  constructor; [pk Ebi_fwd|].
  constructor; [pk IpAddress_fwd|].
  constructor; [pk Mei_fwd|].
  constructor; [pk Msisdn_fwd|].
  constructor; [pk Indication_fwd|].
  constructor; [pk Pco_fwd|].
  constructor; [pk PdnAddressAllocation_fwd|].
  constructor; [pk BearerQos_fwd|].
  constructor; [pk FlowQos_fwd|].
  constructor; [pk RatType_fwd|].
  constructor; [pk ServingNetwork_fwd|].
  constructor; [pk BearerTft_fwd|].
  constructor; [pk TrafficAggregateDescription_fwd|].
  constructor; [pk Uli_fwd|].
  constructor; [pk Fteid_fwd|].
  constructor; [pk Tmsi_fwd|].
  constructor; [pk GlobalCnId_fwd|].
  constructor; [pk S103pdf_fwd|].
  constructor; [pk S1udf_fwd|].
  constructor; [pk DelayValue_fwd|].
  constructor; [apply group_kept; intros n k l; exact (BearerContext_kept n k l)|].
  constructor; [pk ChargingId_fwd|].
  constructor; [pk ChargingCharacteristics_fwd|].
  constructor; [pk TraceInformation_fwd|].
  constructor; [pk BearerFlags_fwd|].
  constructor; [pk PdnType_fwd|].
  constructor; [pk Pti_fwd|].
  constructor; [pk MmGsmT_fwd|].
  constructor; [pk MmUmtsCq_fwd|].
  constructor; [pk MmGsmCq_fwd|].
  constructor; [pk MmUmtsQ_fwd|].
  constructor; [pk MmEps_fwd|].
  constructor; [pk MmUmtsQq_fwd|].
  constructor; [apply group_kept; intros n k l; exact (PdnConnections_kept n k l)|].
  constructor; [pk PduNumbers_fwd|].
  constructor; [pk Ptmsi_fwd|].
  constructor; [pk PtmsiSignature_fwd|].
  constructor; [pk HopCounter_fwd|].
  constructor; [pk UeTimeZone_fwd|].
  constructor; [apply lost_kept; intros y H; exact H|].
  constructor; [pk CompleteRequestMessage_fwd|].
  constructor; [pk Guti_fwd|].
  constructor; [pk Fcontainer_fwd|].
  constructor; [pk Fcause_fwd|].
  constructor; [pk PlmnId_fwd|].
  constructor; [pk TargetIdentification_fwd|].
  constructor; [pk PacketFlowId_fwd|].
  constructor; [pk RabContext_fwd|].
  constructor; [pk SourceRncPdcpContextInfo_fwd|].
  constructor; [pk PortNumber_fwd|].
  constructor; [pk ApnRestriction_fwd|].
  constructor; [pk SelectionMode_fwd|].
  constructor; [pk SourceIdentification_fwd|].
  constructor; [pk ChangeReportingAction_fwd|].
  constructor; [pk Fqcsid_fwd|].
  constructor; [pk ChannelNeeded_fwd|].
  constructor; [pk EmlppPriority_fwd|].
  constructor; [pk NodeType_fwd|].
  constructor; [pk Fqdn_fwd|].
  constructor; [pk TransactionIdentifier_fwd|].
  constructor; [pk MbmsSessionDuration_fwd|].
  constructor; [pk MbmsServiceArea_fwd|].
  constructor; [pk MbmsSessionId_fwd|].
  constructor; [pk MbmsFlowId_fwd|].
  constructor; [pk MbmsIpMulticastDistribution_fwd|].
  constructor; [pk MbmsDistributionAck_fwd|].
  constructor; [pk RfspIndex_fwd|].
  constructor; [pk Uci_fwd|].
  constructor; [pk CSGInformationReportingAction_fwd|].
  constructor; [pk CsgId_fwd|].
  constructor; [pk CsgMembershipIndication_fwd|].
  constructor; [pk ServiceIndicator_fwd|].
  constructor; [pk DetachType_fwd|].
  constructor; [pk Ldn_fwd|].
  constructor; [pk NodeFeatures_fwd|].
  constructor; [pk MbmsTimeToDataTransfer_fwd|].
  constructor; [pk Throttling_fwd|].
  constructor; [pk Arp_fwd|].
  constructor; [pk EpcTimer_fwd|].
  constructor; [pk Spi_fwd|].
  constructor; [pk Tmgi_fwd|].
  constructor; [pk AdditionalMmContextForSrvcc_fwd|].
  constructor; [pk AdditionalFlagsSrvcc_fwd|].
  constructor; [pk MdtConfiguration_fwd|].
  constructor; [pk Apco_fwd|].
  constructor; [pk AbsoluteTimeMbmsDataTransfer_fwd|].
  constructor; [pk HenbInfoReporting_fwd|].
  constructor; [pk Ip4Cp_fwd|].
  constructor; [pk ChangeToReportFlags_fwd|].
  constructor; [pk ActionIndication_fwd|].
  constructor; [pk ActionIndication_fwd|].
  constructor; [pk UliTimestamp_fwd|].
  constructor; [pk MbmsFlags_fwd|].
  constructor; [pk RanNasCause_fwd|].
  constructor; [pk CnOperatorSelectionEntity_fwd|].
  constructor; [pk Twmi_fwd|].
  constructor; [pk NodeNumber_fwd|].
  constructor; [pk NodeIdentifier_fwd|].
  constructor; [pk PresenceReportingAreaAction_fwd|].
  constructor; [pk PresenceReportingAreaInformation_fwd|].
  constructor; [pk TwanIdTimeStamp_fwd|].
  constructor; [apply group_kept; intros n k l; exact (OverloadControlInfo_kept n k l)|].
  constructor; [apply group_kept; intros n k l; exact (LoadControl_kept n k l)|].
  constructor; [pk Metric_fwd|].
  constructor; [pk Sqn_fwd|].
  constructor; [pk ApnRelativeCapacity_fwd|].
  constructor; [pk WlanOffloadIndication_fwd|].
  constructor; [pk PagingServiceInfo_fwd|].
  constructor; [pk IntegerNumber_fwd|].
  constructor; [pk MilliSecondTimeStamp_fwd|].
  constructor; [pk MonitoringEventInformation_fwd|].
  constructor; [pk EcgiList_fwd|].
  constructor; [apply group_kept; intros n k l; exact (RemoteUeContext_kept n k l)|].
  constructor; [pk RemoteUserId_fwd|].
  constructor; [pk RemoteUeIpInformation_fwd|].
  constructor; [pk CIoTOptimizationSupportIndication_fwd|].
  constructor; [apply group_kept; intros n k l; exact (ScefPdnConnections_kept n k l)|].
  constructor; [pk HeaderCompressionConfiguration_fwd|].
  constructor; [pk Epco_fwd|].
  constructor; [pk ServingPlmnRateControl_fwd|].
  constructor; [pk Counter_fwd|].
  constructor; [pk MappedUeUsageType_fwd|].
  constructor; [pk SecondaryRatUsageDataReport_fwd|].
  constructor; [pk UpFunctionSelectionIndicationFlags_fwd|].
  constructor; [pk MaxPacketLossRate_fwd|].
  constructor; [pk ApnRateControlStatus_fwd|].
  constructor; [pk ExtendedTraceInformation_fwd|].
  constructor; [pk MonitoringEventExtensionInfo_fwd|].
  constructor; [pk AdditionalRrmPolicyIndex_fwd|].
  constructor; [apply group_kept; intros n k l; exact (V2xInformation_kept n k l)|].
  constructor; [apply pc5_kept|].
  constructor; [pk ServicesAuthorized_fwd|].
  constructor; [pk BitRate_fwd|].
  constructor; [pk PC5QosFlow_fwd|].
  constructor; [pk SgiPtpTunnelAddress_fwd|].
  constructor; [apply group_kept; intros n k l; exact (PgwChangeInfo_kept n k l)|].
  constructor; [pk PgwFqdn_fwd|].
  constructor; [pk GroupId_fwd|].
  constructor; [pk PSCellId_fwd|].
  constructor; [pk UpSecurityPolicy_fwd|].
  constructor; [pk AlternativeImsi_fwd|].
  constructor; [pk SpecialIEWithTypeExt_fwd|].
  constructor; [pk PrivateExtension_fwd|].
  constructor.
Qed.

Lemma in_catalogue t x m : kind_of_code t = (x, m) -> entry_kept (t, (x, m)).
Proof.
  unfold kind_of_code. destruct (find _ catalogue) as [e|] eqn:E.
  - apply find_some in E. destruct E as [I E]. apply N.eqb_eq in E. intros H. destruct e as [t' y]. cbn [fst snd] in *. subst.
    exact (proj1 (Forall_forall _ _) catalogue_kept _ I).
  - intros H. injection H as <- <-. apply lost_kept. intros y H. exact H.
Qed.

(* ------------------------------------------------------------------------- *)
(* Sequences *)

Scheme octets_say_rect2 := Induction for octets_say Sort Prop with head_says_rect2 := Induction for head_says Sort Prop.
Combined Scheme says_ind from octets_say_rect2, head_says_rect2.
Lemma says_kept : (forall s l, octets_say s l -> bytes s -> Forall kept l) /\ (forall s e n, head_says s e n -> bytes s -> kept e).
Proof.
  apply says_ind.
  - intros _. constructor.
  - intros s e n l H IHh T IHt B. constructor; [apply IHh, B|apply IHt, bytes_skipn, B].
  - intros t q x r e n K R N B. exact (in_catalogue _ _ _ K _ _ B R).
  - intros t a b c q x f l e n K F O IH E N B. refine (in_catalogue _ _ _ K _ _ _ _ _ E). apply IH.
    apply bytes_firstn. unfold bytes in B. do 4 (apply Forall_cons_iff in B; destruct B as [_ B]). exact B.
Qed.

