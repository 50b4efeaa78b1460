(* V2DecFacts.v - the IE list decoder reads back what the encoder wrote. *)
From Verif Require Import Base BaseFacts.
From Verif Require Export V2DecSpec V2IeAFacts V2IeBFacts V2IeCFacts V2IeDFacts V2IeEFacts V2IeFFacts.
Local Open Scope N_scope.
#[global] Arguments decode_one : simpl never.
#[global] Arguments ie_marshal : simpl never.
#[global] Arguments tliv : simpl never.

Definition misses {A} (p : ie -> option A) (l : list ie) : Prop := forall e, In e l -> p e = None.
Lemma misses_app {A} (p : ie -> option A) a b : misses p a -> misses p b -> misses p (a ++ b).
Proof. intros Ha Hb e H. apply in_app_or in H. destruct H; auto. Qed.
Lemma misses_map {A B} (p : ie -> option A) (c : B -> ie) l : (forall x, p (c x) = None) -> misses p (map c l).
Proof. intros H e He. apply in_map_iff in He. destruct He as (x & <- & _). apply H. Qed.
Lemma misses_opt {A B} (p : ie -> option A) (c : B -> ie) o : (forall x, p (c x) = None) -> misses p (opt_ies c o).
Proof. intros H e He. destruct o; cbn in He; [destruct He as [<-|[]]; apply H|contradiction]. Qed.
Lemma misses_one {A B} (p : ie -> option A) (c : B -> ie) x : (forall x, p (c x) = None) -> misses p [c x].
Proof. intros H e [<-|[]]. apply H. Qed.
Lemma misses_nil {A} (p : ie -> option A) : misses p [].
Proof. intros e []. Qed.
Lemma misses_opt_other {A} (sel : ie -> option (Tliv A)) c wf ok ok' o :
  (forall x, sel (c x) = Some x) -> (forall i, ok' i = true -> ok i = false) ->
  opt_ok (mem wf ok') o -> misses (pick sel ok) (opt_ies c o).
Proof.
  intros Hc Hd H e He. destruct o as [x|]; cbn in He; [destruct He as [<-|[]]|contradiction].
  destruct H as [_ H]. unfold pick. rewrite Hc, Hd by exact H. reflexivity.
Qed.
Lemma misses_cons {A} (p : ie -> option A) e l : misses p (e :: l) -> p e = None /\ misses p l.
Proof. intros H. split; [apply H; left; reflexivity|intros x Hx; apply H; right; exact Hx]. Qed.
Lemma misses_first {A} (p : ie -> option A) l : misses p l -> first_of p l = None.
Proof. induction l as [|e l IH]; intros H; [reflexivity|]. apply misses_cons in H. destruct H as [H1 H2]. cbn. rewrite H1. auto. Qed.
Lemma misses_last {A} (p : ie -> option A) l : misses p l -> last_of p l = None.
Proof. induction l as [|e l IH]; intros H; [reflexivity|]. apply misses_cons in H. destruct H as [H1 H2]. cbn. rewrite IH by exact H2. exact H1. Qed.
Lemma misses_all {A} (p : ie -> option A) l : misses p l -> all_of p l = [].
Proof. induction l as [|e l IH]; intros H; [reflexivity|]. apply misses_cons in H. destruct H as [H1 H2]. cbn. rewrite H1. auto. Qed.
Lemma first_app {A} (p : ie -> option A) a b :
  first_of p (a ++ b) = match first_of p a with Some k => Some k | None => first_of p b end.
Proof. induction a as [|x a IH]; [reflexivity|]. cbn. destruct (p x); [reflexivity|exact IH]. Qed.
Lemma last_app {A} (p : ie -> option A) a b :
  last_of p (a ++ b) = match last_of p b with Some k => Some k | None => last_of p a end.
Proof. induction a as [|x a IH]; cbn; [destruct (last_of p b); reflexivity|]. rewrite IH. destruct (last_of p b); reflexivity. Qed.
Lemma all_app {A} (p : ie -> option A) a b : all_of p (a ++ b) = all_of p a ++ all_of p b.
Proof. induction a as [|x a IH]; [reflexivity|]. cbn. destruct (p x); [cbn; f_equal|]; exact IH. Qed.
Lemma first_skip {A} (p : ie -> option A) a b : misses p a -> first_of p (a ++ b) = first_of p b.
Proof. intros H. rewrite first_app, misses_first by exact H. reflexivity. Qed.
Lemma first_take {A} (p : ie -> option A) a b : misses p b -> first_of p (a ++ b) = first_of p a.
Proof. intros H. rewrite first_app, (misses_first p b) by exact H. destruct (first_of p a); reflexivity. Qed.
Lemma last_skip {A} (p : ie -> option A) a b : misses p a -> last_of p (a ++ b) = last_of p b.
Proof. intros H. rewrite last_app, (misses_last p a) by exact H. destruct (last_of p b); reflexivity. Qed.
Lemma last_take {A} (p : ie -> option A) a b : misses p b -> last_of p (a ++ b) = last_of p a.
Proof. intros H. rewrite last_app, (misses_last p b) by exact H. reflexivity. Qed.
Lemma all_skip {A} (p : ie -> option A) a b : misses p a -> all_of p (a ++ b) = all_of p b.
Proof. intros H. rewrite all_app, misses_all by exact H. reflexivity. Qed.
Lemma all_take {A} (p : ie -> option A) a b : misses p b -> all_of p (a ++ b) = all_of p a.
Proof. intros H. rewrite all_app, (misses_all p b) by exact H. apply app_nil_r. Qed.

Section hits.
  Context {A : Type} (sel : ie -> option (Tliv A)) (c : Tliv A -> ie) (wf : Tliv A -> Prop) (ok : N -> bool).
  Hypothesis Hc : forall x, sel (c x) = Some x.
  Lemma pick_hit x : mem wf ok x -> pick sel ok (c x) = Some x.
  Proof. intros [_ H]. unfold pick. rewrite Hc, H. reflexivity. Qed.
  Lemma first_opt_hit o : opt_ok (mem wf ok) o -> first_of (pick sel ok) (opt_ies c o) = o.
  Proof. destruct o as [x|]; cbn; intros H; [rewrite pick_hit by exact H|]; reflexivity. Qed.
  Lemma last_opt_hit o : opt_ok (mem wf ok) o -> last_of (pick sel ok) (opt_ies c o) = o.
  Proof. destruct o as [x|]; cbn; intros H; [apply pick_hit; exact H|reflexivity]. Qed.
  Lemma first_one_hit x : mem wf ok x -> first_of (pick sel ok) [c x] = Some x.
  Proof. cbn. intros H. rewrite pick_hit by exact H. reflexivity. Qed.
  Lemma last_one_hit x : mem wf ok x -> last_of (pick sel ok) [c x] = Some x.
  Proof. cbn. apply pick_hit. Qed.
  Lemma all_hit l : Forall (mem wf ok) l -> all_of (pick sel ok) (map c l) = l.
  Proof. induction 1 as [|x l Hx Hl IH]; [reflexivity|]. cbn [map all_of]. rewrite pick_hit by exact Hx. f_equal. exact IH. Qed.
End hits.

Lemma ins_0_1 i : ins_is 0 i = true -> ins_is 1 i = false.
Proof. unfold ins_is. intros H. apply N.eqb_eq in H. subst. reflexivity. Qed.
Lemma ins_1_0 i : ins_is 1 i = true -> ins_is 0 i = false.
Proof. unfold ins_is. intros H. apply N.eqb_eq in H. subst. reflexivity. Qed.

Ltac miss := intros ?; reflexivity.
Ltac none := lazymatch goal with
  | |- misses _ (_ ++ _) => apply misses_app; none
  | |- misses _ (map _ _) => apply misses_map; miss
  | |- misses _ [] => apply misses_nil
  | |- misses _ [_] => apply misses_one; miss
  | |- misses _ (opt_ies _ _) => first [ apply misses_opt; miss | eapply misses_opt_other; [miss|first [exact ins_0_1|exact ins_1_0]|eassumption] ]
  end.
(* the field is written by segment k of the members *)
Tactic Notation "at_seg" integer(k) :=
  do k (lazymatch goal with
    | |- context [first_of _ (_ ++ _)] => rewrite first_skip by none
    | |- context [last_of _ (_ ++ _)] => rewrite last_skip by none
    | |- context [all_of _ (_ ++ _)] => rewrite all_skip by none end);
  try (lazymatch goal with
    | |- context [first_of _ (_ ++ _)] => rewrite first_take by none
    | |- context [last_of _ (_ ++ _)] => rewrite last_take by none
    | |- context [all_of _ (_ ++ _)] => rewrite all_take by none end);
  lazymatch goal with
  | |- context [first_of _ (opt_ies _ _)] => eapply first_opt_hit; [miss|eassumption]
  | |- context [last_of _ (opt_ies _ _)] => eapply last_opt_hit; [miss|eassumption]
  | |- context [first_of _ [_]] => erewrite first_one_hit by first [miss|eassumption]; reflexivity
  | |- context [last_of _ [_]] => erewrite last_one_hit by first [miss|eassumption]; reflexivity
  | |- context [all_of _ (map _ _)] => eapply all_hit; [miss|eassumption]
  end.
Ltac never := first [rewrite misses_first by none | idtac]; reflexivity.
Lemma mkLoadControl_eq a0 b0 a1 b1 a2 b2 : a0 = b0 -> a1 = b1 -> a2 = b2 -> mkLoadControl a0 a1 a2 = mkLoadControl b0 b1 b2.
Proof. intros. subst. reflexivity. Qed.
Lemma LoadControl_from_members v : LoadControl_ok v -> LoadControl_from (LoadControl_members v) = v.
Proof.
  destruct v as [f0 f1 f2]. unfold LoadControl_ok. cbn [lc_sqn lc_metric lc_list]. intros (H0 & H1 & H2). unfold LoadControl_from, LoadControl_members. cbn [lc_sqn lc_metric lc_list].
  destruct H2 as [->|(k & -> & _)]; cbn [opt_list map]; (apply mkLoadControl_eq; [at_seg 0|at_seg 1|rewrite ?last_skip by none; reflexivity]).
Qed.
Lemma mkOverloadControlInfo_eq a0 b0 a1 b1 a2 b2 a3 b3 : a0 = b0 -> a1 = b1 -> a2 = b2 -> a3 = b3 -> mkOverloadControlInfo a0 a1 a2 a3 = mkOverloadControlInfo b0 b1 b2 b3.
Proof. intros. subst. reflexivity. Qed.
Lemma OverloadControlInfo_from_members v : OverloadControlInfo_ok v -> OverloadControlInfo_from (OverloadControlInfo_members v) = v.
Proof.
  destruct v as [f0 f1 f2 f3]. unfold OverloadControlInfo_ok. cbn [oc_sqn oc_metric oc_validity oc_list]. intros (H0 & H1 & H2 & H3). unfold OverloadControlInfo_from, OverloadControlInfo_members. cbn [oc_sqn oc_metric oc_validity oc_list].
  destruct H3 as [->|(k & -> & _)]; cbn [opt_list map]; (apply mkOverloadControlInfo_eq; [at_seg 0|at_seg 1|at_seg 2|rewrite ?last_skip by none; reflexivity]).
Qed.
Lemma mkRemoteUeContext_eq a0 b0 a1 b1 : a0 = b0 -> a1 = b1 -> mkRemoteUeContext a0 a1 = mkRemoteUeContext b0 b1.
Proof. intros. subst. reflexivity. Qed.
Lemma RemoteUeContext_from_members v : RemoteUeContext_ok v -> RemoteUeContext_from (RemoteUeContext_members v) = v.
Proof.
  destruct v as [f0 f1]. unfold RemoteUeContext_ok. cbn [re_user_id re_ue_ip]. intros (H0 & H1). unfold RemoteUeContext_from, RemoteUeContext_members. cbn [re_user_id re_ue_ip].
  apply mkRemoteUeContext_eq; [at_seg 0|at_seg 1].
Qed.
Lemma mkPC5QosParameters_eq a0 b0 a1 b1 : a0 = b0 -> a1 = b1 -> mkPC5QosParameters a0 a1 = mkPC5QosParameters b0 b1.
Proof. intros. subst. reflexivity. Qed.
Lemma PC5QosParameters_from_members v : PC5QosParameters_ok v -> PC5QosParameters_from (PC5QosParameters_members v) = v.
Proof.
  destruct v as [f0 f1]. unfold PC5QosParameters_ok. cbn [p5_flows p5_abrs]. intros (H0 & H1 & H2). unfold PC5QosParameters_from, PC5QosParameters_members. cbn [p5_flows p5_abrs].
  apply mkPC5QosParameters_eq; [at_seg 0|at_seg 1].
Qed.
Lemma mkPgwChangeInfo_eq a0 b0 a1 b1 a2 b2 a3 b3 : a0 = b0 -> a1 = b1 -> a2 = b2 -> a3 = b3 -> mkPgwChangeInfo a0 a1 a2 a3 = mkPgwChangeInfo b0 b1 b2 b3.
Proof. intros. subst. reflexivity. Qed.
Lemma PgwChangeInfo_from_members v : PgwChangeInfo_ok v -> PgwChangeInfo_from (PgwChangeInfo_members v) = v.
Proof.
  destruct v as [f0 f1 f2 f3]. unfold PgwChangeInfo_ok. cbn [pw_fqdns pw_ips pw_fqcsid pw_groupids]. intros (H0 & H1 & H2 & H3 & H4). unfold PgwChangeInfo_from, PgwChangeInfo_members. cbn [pw_fqdns pw_ips pw_fqcsid pw_groupids].
  apply mkPgwChangeInfo_eq; [at_seg 1|at_seg 0|at_seg 2|at_seg 3].
Qed.
Lemma mkScefPdnConnections_eq a0 b0 a1 b1 a2 b2 : a0 = b0 -> a1 = b1 -> a2 = b2 -> mkScefPdnConnections a0 a1 a2 = mkScefPdnConnections b0 b1 b2.
Proof. intros. subst. reflexivity. Qed.
Lemma ScefPdnConnections_from_members v : ScefPdnConnections_ok v -> ScefPdnConnections_from (ScefPdnConnections_members v) = v.
Proof.
  destruct v as [f0 f1 f2]. unfold ScefPdnConnections_ok. cbn [sf_apn sf_ebi sf_scef]. intros (H0 & H1 & H2). unfold ScefPdnConnections_from, ScefPdnConnections_members. cbn [sf_apn sf_ebi sf_scef].
  apply mkScefPdnConnections_eq; [at_seg 0|at_seg 1|at_seg 2].
Qed.
Lemma mkBearerContext_eq a0 b0 a1 b1 a2 b2 a3 b3 a4 b4 a5 b5 a6 b6 a7 b7 a8 b8 a9 b9 a10 b10 a11 b11 a12 b12 a13 b13 : a0 = b0 -> a1 = b1 -> a2 = b2 -> a3 = b3 -> a4 = b4 -> a5 = b5 -> a6 = b6 -> a7 = b7 -> a8 = b8 -> a9 = b9 -> a10 = b10 -> a11 = b11 -> a12 = b12 -> a13 = b13 -> mkBearerContext a0 a1 a2 a3 a4 a5 a6 a7 a8 a9 a10 a11 a12 a13 = mkBearerContext b0 b1 b2 b3 b4 b5 b6 b7 b8 b9 b10 b11 b12 b13.
Proof. intros. subst. reflexivity. Qed.
Lemma BearerContext_from_members v : BearerContext_ok v -> BearerContext_from (BearerContext_members v) = v.
Proof.
  destruct v as [f0 f1 f2 f3 f4 f5 f6 f7 f8 f9 f10 f11 f12 f13]. unfold BearerContext_ok. cbn [bc_ebi bc_cause bc_tft bc_fteids bc_qos bc_charging bc_flags bc_pco bc_apco bc_epco bc_loss bc_ran bc_bss bc_ti]. intros (H0 & H1 & H2 & H3 & H4 & H5 & H6 & H7 & H8 & H9 & H10 & H11 & H12 & H13). subst. unfold BearerContext_from, BearerContext_members. cbn [bc_ebi bc_cause bc_tft bc_fteids bc_qos bc_charging bc_flags bc_pco bc_apco bc_epco bc_loss bc_ran bc_bss bc_ti].
  apply mkBearerContext_eq; [at_seg 1|at_seg 0|at_seg 2|at_seg 3|at_seg 4|at_seg 5|at_seg 6|at_seg 7|at_seg 8|at_seg 9|at_seg 10|at_seg 11|never|never].
Qed.
Lemma mkV2xInformation_eq a0 b0 a1 b1 a2 b2 : a0 = b0 -> a1 = b1 -> a2 = b2 -> mkV2xInformation a0 a1 a2 = mkV2xInformation b0 b1 b2.
Proof. intros. subst. reflexivity. Qed.
Lemma V2xInformation_from_members v : V2xInformation_ok v -> V2xInformation_from (V2xInformation_members v) = v.
Proof.
  destruct v as [f0 f1 f2]. unfold V2xInformation_ok. cbn [vx_auth vx_brs vx_qos]. intros (H0 & H1 & H2 & H3). unfold V2xInformation_from, V2xInformation_members. cbn [vx_auth vx_brs vx_qos].
  apply mkV2xInformation_eq; [at_seg 0|at_seg 1|at_seg 2].
Qed.
Lemma mkPdnConnections_eq a0 b0 a1 b1 a2 b2 a3 b3 a4 b4 a5 b5 a6 b6 a7 b7 a8 b8 a9 b9 a10 b10 a11 b11 a12 b12 a13 b13 a14 b14 a15 b15 a16 b16 a17 b17 a18 b18 a19 b19 a20 b20 a21 b21 a22 b22 a23 b23 a24 b24 : a0 = b0 -> a1 = b1 -> a2 = b2 -> a3 = b3 -> a4 = b4 -> a5 = b5 -> a6 = b6 -> a7 = b7 -> a8 = b8 -> a9 = b9 -> a10 = b10 -> a11 = b11 -> a12 = b12 -> a13 = b13 -> a14 = b14 -> a15 = b15 -> a16 = b16 -> a17 = b17 -> a18 = b18 -> a19 = b19 -> a20 = b20 -> a21 = b21 -> a22 = b22 -> a23 = b23 -> a24 = b24 -> mkPdnConnections a0 a1 a2 a3 a4 a5 a6 a7 a8 a9 a10 a11 a12 a13 a14 a15 a16 a17 a18 a19 a20 a21 a22 a23 a24 = mkPdnConnections b0 b1 b2 b3 b4 b5 b6 b7 b8 b9 b10 b11 b12 b13 b14 b15 b16 b17 b18 b19 b20 b21 b22 b23 b24.
Proof. intros. subst. reflexivity. Qed.
Lemma PdnConnections_from_members v : PdnConnections_ok v -> PdnConnections_from (PdnConnections_members v) = v.
Proof.
  destruct v as [f0 f1 f2 f3 f4 f5 f6 f7 f8 f9 f10 f11 f12 f13 f14 f15 f16 f17 f18 f19 f20 f21 f22 f23 f24]. unfold PdnConnections_ok. cbn [pn_apn pn_restriction pn_selection pn_ipv4 pn_ipv6 pn_ebi pn_pgw pn_node_name pn_bearers pn_ambr pn_charging pn_reporting pn_csg pn_henb pn_indication pn_spi pn_report_flags pn_home pn_praa pn_wlan pn_remotes pn_pdn_type pn_compr pn_change pn_policy]. intros (H0 & H1 & H2 & H3 & H4 & H5 & H6 & H7 & H8 & H9 & H10 & H11 & H12 & H13 & H14 & H15 & H16 & H17 & H18 & H19 & H20 & H21 & H22 & H23 & H24). subst. unfold PdnConnections_from, PdnConnections_members. cbn [pn_apn pn_restriction pn_selection pn_ipv4 pn_ipv6 pn_ebi pn_pgw pn_node_name pn_bearers pn_ambr pn_charging pn_reporting pn_csg pn_henb pn_indication pn_spi pn_report_flags pn_home pn_praa pn_wlan pn_remotes pn_pdn_type pn_compr pn_change pn_policy].
  apply mkPdnConnections_eq; [at_seg 0|at_seg 1|at_seg 2|at_seg 3|at_seg 4|at_seg 5|at_seg 6|at_seg 7|at_seg 8|at_seg 9|at_seg 10|at_seg 11|at_seg 12|at_seg 13|at_seg 14|at_seg 15|at_seg 16|at_seg 17|at_seg 18|at_seg 19|at_seg 20|at_seg 21|at_seg 22|never|never].
Qed.

(* the octets of the members are the value octets *)
Lemma encoder_app a b : encoder (a ++ b) = encoder a ++ encoder b.
Proof. unfold encoder. rewrite map_app, concat_app. reflexivity. Qed.
Lemma encoder_one e : encoder [e] = ie_marshal e.
Proof. unfold encoder. cbn. apply app_nil_r. Qed.
Lemma encoder_opt {A} (c : A -> ie) f o : (forall x, ie_marshal (c x) = f x) -> encoder (opt_ies c o) = opt_enc f o.
Proof. intros H. destruct o; cbn [opt_ies opt_enc]; [rewrite encoder_one; apply H|reflexivity]. Qed.
Lemma encoder_many {A} (c : A -> ie) f l : (forall x, ie_marshal (c x) = f x) -> encoder (map c l) = many_enc f l.
Proof. intros H. unfold encoder, many_enc. rewrite map_map. f_equal. apply map_ext. exact H. Qed.
Ltac members := rewrite ?encoder_app, ?encoder_one; repeat first
  [ erewrite encoder_opt by (intros; reflexivity) | erewrite encoder_many by (intros; reflexivity) ]; reflexivity.
Lemma LoadControl_members_value v : encoder (LoadControl_members v) = LoadControl_value v.
Proof. unfold LoadControl_members, LoadControl_value. members. Qed.
Lemma OverloadControlInfo_members_value v : encoder (OverloadControlInfo_members v) = OverloadControlInfo_value v.
Proof. unfold OverloadControlInfo_members, OverloadControlInfo_value. members. Qed.
Lemma RemoteUeContext_members_value v : encoder (RemoteUeContext_members v) = RemoteUeContext_value v.
Proof. unfold RemoteUeContext_members, RemoteUeContext_value. members. Qed.
Lemma PC5QosParameters_members_value v : encoder (PC5QosParameters_members v) = PC5QosParameters_value v.
Proof. unfold PC5QosParameters_members, PC5QosParameters_value. members. Qed.
Lemma PgwChangeInfo_members_value v : encoder (PgwChangeInfo_members v) = PgwChangeInfo_value v.
Proof. unfold PgwChangeInfo_members, PgwChangeInfo_value. members. Qed.
Lemma ScefPdnConnections_members_value v : encoder (ScefPdnConnections_members v) = ScefPdnConnections_value v.
Proof. unfold ScefPdnConnections_members, ScefPdnConnections_value. members. Qed.
Lemma BearerContext_members_value v : encoder (BearerContext_members v) = BearerContext_value v.
Proof. unfold BearerContext_members, BearerContext_value. members. Qed.
Lemma V2xInformation_members_value v : encoder (V2xInformation_members v) = V2xInformation_value v.
Proof. unfold V2xInformation_members, V2xInformation_value. members. Qed.
Lemma PdnConnections_members_value v : encoder (PdnConnections_members v) = PdnConnections_value v.
Proof. unfold PdnConnections_members, PdnConnections_value. members. Qed.

(* plain IEs *)
Definition nest (e : ie) : nat :=
  match e with
  | IE_V2xInformation _ | IE_PdnConnections _ => 2
  | IE_LoadControlInfo _ | IE_OverloadControlInfo _ | IE_RemoteUeContext _ | IE_PC5QosParameters _ | IE_PgwChangeInfo _ | IE_ScefPdnConnections _ | IE_BearerContext _ => 1
  | _ => 0
  end.
Lemma tliv_head T len ins v r : at_ (tliv T len ins v ++ r) 0 = Ok (E:=GTPV2Error) T.
Proof. reflexivity. Qed.
Lemma disp_1 dec m b : at_ b 0 = Ok (E:=GTPV2Error) 1 -> decode_one dec m b = lift IE_Imsi (Imsi_unmarshal m b).
Proof. intros H. unfold decode_one. rewrite H. reflexivity. Qed.
Lemma disp_2 dec m b : at_ b 0 = Ok (E:=GTPV2Error) 2 -> decode_one dec m b = lift IE_Cause (Cause_unmarshal m b).
Proof. intros H. unfold decode_one. rewrite H. reflexivity. Qed.
Lemma disp_3 dec m b : at_ b 0 = Ok (E:=GTPV2Error) 3 -> decode_one dec m b = lift IE_Recovery (Recovery_unmarshal m b).
Proof. intros H. unfold decode_one. rewrite H. reflexivity. Qed.
Lemma disp_51 dec m b : at_ b 0 = Ok (E:=GTPV2Error) 51 -> decode_one dec m b = lift IE_StnSr (StnSr_unmarshal m b).
Proof. intros H. unfold decode_one. rewrite H. reflexivity. Qed.
Lemma disp_56 dec m b : at_ b 0 = Ok (E:=GTPV2Error) 56 -> decode_one dec m b = lift IE_SrvccCause (SrvccCause_unmarshal m b).
Proof. intros H. unfold decode_one. rewrite H. reflexivity. Qed.
Lemma disp_71 dec m b : at_ b 0 = Ok (E:=GTPV2Error) 71 -> decode_one dec m b = lift IE_Apn (Apn_unmarshal m b).
Proof. intros H. unfold decode_one. rewrite H. reflexivity. Qed.
Lemma disp_72 dec m b : at_ b 0 = Ok (E:=GTPV2Error) 72 -> decode_one dec m b = lift IE_ApnAmbr (Ambr_unmarshal m b).
Proof. intros H. unfold decode_one. rewrite H. reflexivity. Qed.
Lemma disp_73 dec m b : at_ b 0 = Ok (E:=GTPV2Error) 73 -> decode_one dec m b = lift IE_Ebi (Ebi_unmarshal m b).
Proof. intros H. unfold decode_one. rewrite H. reflexivity. Qed.
Lemma disp_74 dec m b : at_ b 0 = Ok (E:=GTPV2Error) 74 -> decode_one dec m b = lift IE_IpAddress (IpAddress_unmarshal m b).
Proof. intros H. unfold decode_one. rewrite H. reflexivity. Qed.
Lemma disp_75 dec m b : at_ b 0 = Ok (E:=GTPV2Error) 75 -> decode_one dec m b = lift IE_Mei (Mei_unmarshal m b).
Proof. intros H. unfold decode_one. rewrite H. reflexivity. Qed.
Lemma disp_76 dec m b : at_ b 0 = Ok (E:=GTPV2Error) 76 -> decode_one dec m b = lift IE_Msisdn (Msisdn_unmarshal m b).
Proof. intros H. unfold decode_one. rewrite H. reflexivity. Qed.
Lemma disp_77 dec m b : at_ b 0 = Ok (E:=GTPV2Error) 77 -> decode_one dec m b = lift IE_Indication (Indication_unmarshal m b).
Proof. intros H. unfold decode_one. rewrite H. reflexivity. Qed.
Lemma disp_78 dec m b : at_ b 0 = Ok (E:=GTPV2Error) 78 -> decode_one dec m b = lift IE_Pco (Pco_unmarshal m b).
Proof. intros H. unfold decode_one. rewrite H. reflexivity. Qed.
Lemma disp_79 dec m b : at_ b 0 = Ok (E:=GTPV2Error) 79 -> decode_one dec m b = lift IE_PdnAddressAllocation (PdnAddressAllocation_unmarshal m b).
Proof. intros H. unfold decode_one. rewrite H. reflexivity. Qed.
Lemma disp_80 dec m b : at_ b 0 = Ok (E:=GTPV2Error) 80 -> decode_one dec m b = lift IE_BearerQos (BearerQos_unmarshal m b).
Proof. intros H. unfold decode_one. rewrite H. reflexivity. Qed.
Lemma disp_81 dec m b : at_ b 0 = Ok (E:=GTPV2Error) 81 -> decode_one dec m b = lift IE_FlowQos (FlowQos_unmarshal m b).
Proof. intros H. unfold decode_one. rewrite H. reflexivity. Qed.
Lemma disp_82 dec m b : at_ b 0 = Ok (E:=GTPV2Error) 82 -> decode_one dec m b = lift IE_RatType (RatType_unmarshal m b).
Proof. intros H. unfold decode_one. rewrite H. reflexivity. Qed.
Lemma disp_83 dec m b : at_ b 0 = Ok (E:=GTPV2Error) 83 -> decode_one dec m b = lift IE_ServingNetwork (ServingNetwork_unmarshal m b).
Proof. intros H. unfold decode_one. rewrite H. reflexivity. Qed.
Lemma disp_84 dec m b : at_ b 0 = Ok (E:=GTPV2Error) 84 -> decode_one dec m b = lift IE_BearerTft (BearerTft_unmarshal m b).
Proof. intros H. unfold decode_one. rewrite H. reflexivity. Qed.
Lemma disp_85 dec m b : at_ b 0 = Ok (E:=GTPV2Error) 85 -> decode_one dec m b = lift IE_TrafficAggregateDescription (TrafficAggregateDescription_unmarshal m b).
Proof. intros H. unfold decode_one. rewrite H. reflexivity. Qed.
Lemma disp_86 dec m b : at_ b 0 = Ok (E:=GTPV2Error) 86 -> decode_one dec m b = lift IE_Uli (Uli_unmarshal m b).
Proof. intros H. unfold decode_one. rewrite H. reflexivity. Qed.
Lemma disp_87 dec m b : at_ b 0 = Ok (E:=GTPV2Error) 87 -> decode_one dec m b = lift IE_Fteid (Fteid_unmarshal m b).
Proof. intros H. unfold decode_one. rewrite H. reflexivity. Qed.
Lemma disp_88 dec m b : at_ b 0 = Ok (E:=GTPV2Error) 88 -> decode_one dec m b = lift IE_Tmsi (Tmsi_unmarshal m b).
Proof. intros H. unfold decode_one. rewrite H. reflexivity. Qed.
Lemma disp_89 dec m b : at_ b 0 = Ok (E:=GTPV2Error) 89 -> decode_one dec m b = lift IE_GlobalCnId (GlobalCnId_unmarshal m b).
Proof. intros H. unfold decode_one. rewrite H. reflexivity. Qed.
Lemma disp_90 dec m b : at_ b 0 = Ok (E:=GTPV2Error) 90 -> decode_one dec m b = lift IE_S103pdf (S103pdf_unmarshal m b).
Proof. intros H. unfold decode_one. rewrite H. reflexivity. Qed.
Lemma disp_91 dec m b : at_ b 0 = Ok (E:=GTPV2Error) 91 -> decode_one dec m b = lift IE_S1udf (S1udf_unmarshal m b).
Proof. intros H. unfold decode_one. rewrite H. reflexivity. Qed.
Lemma disp_92 dec m b : at_ b 0 = Ok (E:=GTPV2Error) 92 -> decode_one dec m b = lift IE_DelayValue (DelayValue_unmarshal m b).
Proof. intros H. unfold decode_one. rewrite H. reflexivity. Qed.
Lemma disp_93 dec m b : at_ b 0 = Ok (E:=GTPV2Error) 93 -> decode_one dec m b = lift IE_BearerContext (BearerContext_unmarshal dec m b).
Proof. intros H. unfold decode_one. rewrite H. reflexivity. Qed.
Lemma disp_94 dec m b : at_ b 0 = Ok (E:=GTPV2Error) 94 -> decode_one dec m b = lift IE_ChargingId (ChargingId_unmarshal m b).
Proof. intros H. unfold decode_one. rewrite H. reflexivity. Qed.
Lemma disp_95 dec m b : at_ b 0 = Ok (E:=GTPV2Error) 95 -> decode_one dec m b = lift IE_ChargingCharacteristics (ChargingCharacteristics_unmarshal m b).
Proof. intros H. unfold decode_one. rewrite H. reflexivity. Qed.
Lemma disp_96 dec m b : at_ b 0 = Ok (E:=GTPV2Error) 96 -> decode_one dec m b = lift IE_TraceInformation (TraceInformation_unmarshal m b).
Proof. intros H. unfold decode_one. rewrite H. reflexivity. Qed.
Lemma disp_97 dec m b : at_ b 0 = Ok (E:=GTPV2Error) 97 -> decode_one dec m b = lift IE_BearerFlags (BearerFlags_unmarshal m b).
Proof. intros H. unfold decode_one. rewrite H. reflexivity. Qed.
Lemma disp_99 dec m b : at_ b 0 = Ok (E:=GTPV2Error) 99 -> decode_one dec m b = lift IE_PdnType (PdnType_unmarshal m b).
Proof. intros H. unfold decode_one. rewrite H. reflexivity. Qed.
Lemma disp_100 dec m b : at_ b 0 = Ok (E:=GTPV2Error) 100 -> decode_one dec m b = lift IE_Pti (Pti_unmarshal m b).
Proof. intros H. unfold decode_one. rewrite H. reflexivity. Qed.
Lemma disp_109 dec m b : at_ b 0 = Ok (E:=GTPV2Error) 109 -> decode_one dec m b = lift IE_PdnConnections (PdnConnections_unmarshal dec m b).
Proof. intros H. unfold decode_one. rewrite H. reflexivity. Qed.
Lemma disp_110 dec m b : at_ b 0 = Ok (E:=GTPV2Error) 110 -> decode_one dec m b = lift IE_PduNumbers (PduNumbers_unmarshal m b).
Proof. intros H. unfold decode_one. rewrite H. reflexivity. Qed.
Lemma disp_111 dec m b : at_ b 0 = Ok (E:=GTPV2Error) 111 -> decode_one dec m b = lift IE_Ptmsi (Ptmsi_unmarshal m b).
Proof. intros H. unfold decode_one. rewrite H. reflexivity. Qed.
Lemma disp_112 dec m b : at_ b 0 = Ok (E:=GTPV2Error) 112 -> decode_one dec m b = lift IE_PtmsiSignature (PtmsiSignature_unmarshal m b).
Proof. intros H. unfold decode_one. rewrite H. reflexivity. Qed.
Lemma disp_113 dec m b : at_ b 0 = Ok (E:=GTPV2Error) 113 -> decode_one dec m b = lift IE_HopCounter (HopCounter_unmarshal m b).
Proof. intros H. unfold decode_one. rewrite H. reflexivity. Qed.
Lemma disp_114 dec m b : at_ b 0 = Ok (E:=GTPV2Error) 114 -> decode_one dec m b = lift IE_UeTimeZone (UeTimeZone_unmarshal m b).
Proof. intros H. unfold decode_one. rewrite H. reflexivity. Qed.
Lemma disp_115 dec m b : at_ b 0 = Ok (E:=GTPV2Error) 115 -> decode_one dec m b = lift IE_TraceReference (TraceReference_unmarshal m b).
Proof. intros H. unfold decode_one. rewrite H. reflexivity. Qed.
Lemma disp_116 dec m b : at_ b 0 = Ok (E:=GTPV2Error) 116 -> decode_one dec m b = lift IE_CompleteRequestMessage (CompleteRequestMessage_unmarshal m b).
Proof. intros H. unfold decode_one. rewrite H. reflexivity. Qed.
Lemma disp_117 dec m b : at_ b 0 = Ok (E:=GTPV2Error) 117 -> decode_one dec m b = lift IE_Guti (Guti_unmarshal m b).
Proof. intros H. unfold decode_one. rewrite H. reflexivity. Qed.
Lemma disp_118 dec m b : at_ b 0 = Ok (E:=GTPV2Error) 118 -> decode_one dec m b = lift IE_Fcontainer (Fcontainer_unmarshal m b).
Proof. intros H. unfold decode_one. rewrite H. reflexivity. Qed.
Lemma disp_119 dec m b : at_ b 0 = Ok (E:=GTPV2Error) 119 -> decode_one dec m b = lift IE_Fcause (Fcause_unmarshal m b).
Proof. intros H. unfold decode_one. rewrite H. reflexivity. Qed.
Lemma disp_120 dec m b : at_ b 0 = Ok (E:=GTPV2Error) 120 -> decode_one dec m b = lift IE_PlmnId (PlmnId_unmarshal m b).
Proof. intros H. unfold decode_one. rewrite H. reflexivity. Qed.
Lemma disp_121 dec m b : at_ b 0 = Ok (E:=GTPV2Error) 121 -> decode_one dec m b = lift IE_TargetIdentification (TargetIdentification_unmarshal m b).
Proof. intros H. unfold decode_one. rewrite H. reflexivity. Qed.
Lemma disp_123 dec m b : at_ b 0 = Ok (E:=GTPV2Error) 123 -> decode_one dec m b = lift IE_PacketFlowId (PacketFlowId_unmarshal m b).
Proof. intros H. unfold decode_one. rewrite H. reflexivity. Qed.
Lemma disp_124 dec m b : at_ b 0 = Ok (E:=GTPV2Error) 124 -> decode_one dec m b = lift IE_RabContext (RabContext_unmarshal m b).
Proof. intros H. unfold decode_one. rewrite H. reflexivity. Qed.
Lemma disp_125 dec m b : at_ b 0 = Ok (E:=GTPV2Error) 125 -> decode_one dec m b = lift IE_SrcRncPdcpCtxInfo (SourceRncPdcpContextInfo_unmarshal m b).
Proof. intros H. unfold decode_one. rewrite H. reflexivity. Qed.
Lemma disp_126 dec m b : at_ b 0 = Ok (E:=GTPV2Error) 126 -> decode_one dec m b = lift IE_PortNumber (PortNumber_unmarshal m b).
Proof. intros H. unfold decode_one. rewrite H. reflexivity. Qed.
Lemma disp_127 dec m b : at_ b 0 = Ok (E:=GTPV2Error) 127 -> decode_one dec m b = lift IE_ApnRestriction (ApnRestriction_unmarshal m b).
Proof. intros H. unfold decode_one. rewrite H. reflexivity. Qed.
Lemma disp_128 dec m b : at_ b 0 = Ok (E:=GTPV2Error) 128 -> decode_one dec m b = lift IE_SelectionMode (SelectionMode_unmarshal m b).
Proof. intros H. unfold decode_one. rewrite H. reflexivity. Qed.
Lemma disp_129 dec m b : at_ b 0 = Ok (E:=GTPV2Error) 129 -> decode_one dec m b = lift IE_SourceIdentification (SourceIdentification_unmarshal m b).
Proof. intros H. unfold decode_one. rewrite H. reflexivity. Qed.
Lemma disp_131 dec m b : at_ b 0 = Ok (E:=GTPV2Error) 131 -> decode_one dec m b = lift IE_ChangeReportingAction (ChangeReportingAction_unmarshal m b).
Proof. intros H. unfold decode_one. rewrite H. reflexivity. Qed.
Lemma disp_132 dec m b : at_ b 0 = Ok (E:=GTPV2Error) 132 -> decode_one dec m b = lift IE_Fqcsid (Fqcsid_unmarshal m b).
Proof. intros H. unfold decode_one. rewrite H. reflexivity. Qed.
Lemma disp_133 dec m b : at_ b 0 = Ok (E:=GTPV2Error) 133 -> decode_one dec m b = lift IE_ChannelNeeded (ChannelNeeded_unmarshal m b).
Proof. intros H. unfold decode_one. rewrite H. reflexivity. Qed.
Lemma disp_134 dec m b : at_ b 0 = Ok (E:=GTPV2Error) 134 -> decode_one dec m b = lift IE_EmlppPriority (EmlppPriority_unmarshal m b).
Proof. intros H. unfold decode_one. rewrite H. reflexivity. Qed.
Lemma disp_135 dec m b : at_ b 0 = Ok (E:=GTPV2Error) 135 -> decode_one dec m b = lift IE_NodeType (NodeType_unmarshal m b).
Proof. intros H. unfold decode_one. rewrite H. reflexivity. Qed.
Lemma disp_136 dec m b : at_ b 0 = Ok (E:=GTPV2Error) 136 -> decode_one dec m b = lift IE_Fqdn (Fqdn_unmarshal m b).
Proof. intros H. unfold decode_one. rewrite H. reflexivity. Qed.
Lemma disp_137 dec m b : at_ b 0 = Ok (E:=GTPV2Error) 137 -> decode_one dec m b = lift IE_TransactionIdentifier (TransactionIdentifier_unmarshal m b).
Proof. intros H. unfold decode_one. rewrite H. reflexivity. Qed.
Lemma disp_138 dec m b : at_ b 0 = Ok (E:=GTPV2Error) 138 -> decode_one dec m b = lift IE_MbmsSd (MbmsSessionDuration_unmarshal m b).
Proof. intros H. unfold decode_one. rewrite H. reflexivity. Qed.
Lemma disp_139 dec m b : at_ b 0 = Ok (E:=GTPV2Error) 139 -> decode_one dec m b = lift IE_MbmsSa (MbmsServiceArea_unmarshal m b).
Proof. intros H. unfold decode_one. rewrite H. reflexivity. Qed.
Lemma disp_140 dec m b : at_ b 0 = Ok (E:=GTPV2Error) 140 -> decode_one dec m b = lift IE_MbmsSessionId (MbmsSessionId_unmarshal m b).
Proof. intros H. unfold decode_one. rewrite H. reflexivity. Qed.
Lemma disp_141 dec m b : at_ b 0 = Ok (E:=GTPV2Error) 141 -> decode_one dec m b = lift IE_MbmsFlowId (MbmsFlowId_unmarshal m b).
Proof. intros H. unfold decode_one. rewrite H. reflexivity. Qed.
Lemma disp_142 dec m b : at_ b 0 = Ok (E:=GTPV2Error) 142 -> decode_one dec m b = lift IE_MbmsIpMulticastDistribution (MbmsIpMulticastDistribution_unmarshal m b).
Proof. intros H. unfold decode_one. rewrite H. reflexivity. Qed.
Lemma disp_143 dec m b : at_ b 0 = Ok (E:=GTPV2Error) 143 -> decode_one dec m b = lift IE_MbmsDistributionAck (MbmsDistributionAck_unmarshal m b).
Proof. intros H. unfold decode_one. rewrite H. reflexivity. Qed.
Lemma disp_144 dec m b : at_ b 0 = Ok (E:=GTPV2Error) 144 -> decode_one dec m b = lift IE_RfspIndex (RfspIndex_unmarshal m b).
Proof. intros H. unfold decode_one. rewrite H. reflexivity. Qed.
Lemma disp_145 dec m b : at_ b 0 = Ok (E:=GTPV2Error) 145 -> decode_one dec m b = lift IE_Uci (Uci_unmarshal m b).
Proof. intros H. unfold decode_one. rewrite H. reflexivity. Qed.
Lemma disp_146 dec m b : at_ b 0 = Ok (E:=GTPV2Error) 146 -> decode_one dec m b = lift IE_CSGInformationReportingAction (CSGInformationReportingAction_unmarshal m b).
Proof. intros H. unfold decode_one. rewrite H. reflexivity. Qed.
Lemma disp_147 dec m b : at_ b 0 = Ok (E:=GTPV2Error) 147 -> decode_one dec m b = lift IE_CsgId (CsgId_unmarshal m b).
Proof. intros H. unfold decode_one. rewrite H. reflexivity. Qed.
Lemma disp_148 dec m b : at_ b 0 = Ok (E:=GTPV2Error) 148 -> decode_one dec m b = lift IE_CsgMembershipIndication (CsgMembershipIndication_unmarshal m b).
Proof. intros H. unfold decode_one. rewrite H. reflexivity. Qed.
Lemma disp_149 dec m b : at_ b 0 = Ok (E:=GTPV2Error) 149 -> decode_one dec m b = lift IE_ServiceIndicator (ServiceIndicator_unmarshal m b).
Proof. intros H. unfold decode_one. rewrite H. reflexivity. Qed.
Lemma disp_150 dec m b : at_ b 0 = Ok (E:=GTPV2Error) 150 -> decode_one dec m b = lift IE_DetachType (DetachType_unmarshal m b).
Proof. intros H. unfold decode_one. rewrite H. reflexivity. Qed.
Lemma disp_151 dec m b : at_ b 0 = Ok (E:=GTPV2Error) 151 -> decode_one dec m b = lift IE_Ldn (Ldn_unmarshal m b).
Proof. intros H. unfold decode_one. rewrite H. reflexivity. Qed.
Lemma disp_152 dec m b : at_ b 0 = Ok (E:=GTPV2Error) 152 -> decode_one dec m b = lift IE_NodeFeatures (NodeFeatures_unmarshal m b).
Proof. intros H. unfold decode_one. rewrite H. reflexivity. Qed.
Lemma disp_153 dec m b : at_ b 0 = Ok (E:=GTPV2Error) 153 -> decode_one dec m b = lift IE_MbmsTimeToDataTransfer (MbmsTimeToDataTransfer_unmarshal m b).
Proof. intros H. unfold decode_one. rewrite H. reflexivity. Qed.
Lemma disp_154 dec m b : at_ b 0 = Ok (E:=GTPV2Error) 154 -> decode_one dec m b = lift IE_Throttling (Throttling_unmarshal m b).
Proof. intros H. unfold decode_one. rewrite H. reflexivity. Qed.
Lemma disp_155 dec m b : at_ b 0 = Ok (E:=GTPV2Error) 155 -> decode_one dec m b = lift IE_Arp (Arp_unmarshal m b).
Proof. intros H. unfold decode_one. rewrite H. reflexivity. Qed.
Lemma disp_156 dec m b : at_ b 0 = Ok (E:=GTPV2Error) 156 -> decode_one dec m b = lift IE_EpcTimer (EpcTimer_unmarshal m b).
Proof. intros H. unfold decode_one. rewrite H. reflexivity. Qed.
Lemma disp_157 dec m b : at_ b 0 = Ok (E:=GTPV2Error) 157 -> decode_one dec m b = lift IE_Spi (Spi_unmarshal m b).
Proof. intros H. unfold decode_one. rewrite H. reflexivity. Qed.
Lemma disp_158 dec m b : at_ b 0 = Ok (E:=GTPV2Error) 158 -> decode_one dec m b = lift IE_Tmgi (Tmgi_unmarshal m b).
Proof. intros H. unfold decode_one. rewrite H. reflexivity. Qed.
Lemma disp_159 dec m b : at_ b 0 = Ok (E:=GTPV2Error) 159 -> decode_one dec m b = lift IE_AdditionalMmContextForSrvcc (AdditionalMmContextForSrvcc_unmarshal m b).
Proof. intros H. unfold decode_one. rewrite H. reflexivity. Qed.
Lemma disp_160 dec m b : at_ b 0 = Ok (E:=GTPV2Error) 160 -> decode_one dec m b = lift IE_AdditionalFlagsSrvcc (AdditionalFlagsSrvcc_unmarshal m b).
Proof. intros H. unfold decode_one. rewrite H. reflexivity. Qed.
Lemma disp_162 dec m b : at_ b 0 = Ok (E:=GTPV2Error) 162 -> decode_one dec m b = lift IE_MdtConfiguration (MdtConfiguration_unmarshal m b).
Proof. intros H. unfold decode_one. rewrite H. reflexivity. Qed.
Lemma disp_163 dec m b : at_ b 0 = Ok (E:=GTPV2Error) 163 -> decode_one dec m b = lift IE_Apco (Apco_unmarshal m b).
Proof. intros H. unfold decode_one. rewrite H. reflexivity. Qed.
Lemma disp_164 dec m b : at_ b 0 = Ok (E:=GTPV2Error) 164 -> decode_one dec m b = lift IE_AbsoluteTimeMbmsDataTransfer (AbsoluteTimeMbmsDataTransfer_unmarshal m b).
Proof. intros H. unfold decode_one. rewrite H. reflexivity. Qed.
Lemma disp_165 dec m b : at_ b 0 = Ok (E:=GTPV2Error) 165 -> decode_one dec m b = lift IE_HenbInfoReporting (HenbInfoReporting_unmarshal m b).
Proof. intros H. unfold decode_one. rewrite H. reflexivity. Qed.
Lemma disp_166 dec m b : at_ b 0 = Ok (E:=GTPV2Error) 166 -> decode_one dec m b = lift IE_Ip4Cp (Ip4Cp_unmarshal m b).
Proof. intros H. unfold decode_one. rewrite H. reflexivity. Qed.
Lemma disp_167 dec m b : at_ b 0 = Ok (E:=GTPV2Error) 167 -> decode_one dec m b = lift IE_ChangeToReportFlags (ChangeToReportFlags_unmarshal m b).
Proof. intros H. unfold decode_one. rewrite H. reflexivity. Qed.
Lemma disp_168 dec m b : at_ b 0 = Ok (E:=GTPV2Error) 168 -> decode_one dec m b = lift IE_ActionIndication (ActionIndication_unmarshal m b).
Proof. intros H. unfold decode_one. rewrite H. reflexivity. Qed.
Lemma disp_169 dec m b : at_ b 0 = Ok (E:=GTPV2Error) 169 -> decode_one dec m b = lift IE_ActionIndication (ActionIndication_unmarshal m b).
Proof. intros H. unfold decode_one. rewrite H. reflexivity. Qed.
Lemma disp_170 dec m b : at_ b 0 = Ok (E:=GTPV2Error) 170 -> decode_one dec m b = lift IE_UliTimestamp (UliTimestamp_unmarshal m b).
Proof. intros H. unfold decode_one. rewrite H. reflexivity. Qed.
Lemma disp_171 dec m b : at_ b 0 = Ok (E:=GTPV2Error) 171 -> decode_one dec m b = lift IE_MbmsFlags (MbmsFlags_unmarshal m b).
Proof. intros H. unfold decode_one. rewrite H. reflexivity. Qed.
Lemma disp_172 dec m b : at_ b 0 = Ok (E:=GTPV2Error) 172 -> decode_one dec m b = lift IE_RanNasCause (RanNasCause_unmarshal m b).
Proof. intros H. unfold decode_one. rewrite H. reflexivity. Qed.
Lemma disp_173 dec m b : at_ b 0 = Ok (E:=GTPV2Error) 173 -> decode_one dec m b = lift IE_CnOperatorSelectionEntity (CnOperatorSelectionEntity_unmarshal m b).
Proof. intros H. unfold decode_one. rewrite H. reflexivity. Qed.
Lemma disp_174 dec m b : at_ b 0 = Ok (E:=GTPV2Error) 174 -> decode_one dec m b = lift IE_Twmi (Twmi_unmarshal m b).
Proof. intros H. unfold decode_one. rewrite H. reflexivity. Qed.
Lemma disp_175 dec m b : at_ b 0 = Ok (E:=GTPV2Error) 175 -> decode_one dec m b = lift IE_NodeNumber (NodeNumber_unmarshal m b).
Proof. intros H. unfold decode_one. rewrite H. reflexivity. Qed.
Lemma disp_176 dec m b : at_ b 0 = Ok (E:=GTPV2Error) 176 -> decode_one dec m b = lift IE_NodeIdentifier (NodeIdentifier_unmarshal m b).
Proof. intros H. unfold decode_one. rewrite H. reflexivity. Qed.
Lemma disp_177 dec m b : at_ b 0 = Ok (E:=GTPV2Error) 177 -> decode_one dec m b = lift IE_PresenceReportingAreaAction (PresenceReportingAreaAction_unmarshal m b).
Proof. intros H. unfold decode_one. rewrite H. reflexivity. Qed.
Lemma disp_178 dec m b : at_ b 0 = Ok (E:=GTPV2Error) 178 -> decode_one dec m b = lift IE_PresenceReportingAreaInformation (PresenceReportingAreaInformation_unmarshal m b).
Proof. intros H. unfold decode_one. rewrite H. reflexivity. Qed.
Lemma disp_179 dec m b : at_ b 0 = Ok (E:=GTPV2Error) 179 -> decode_one dec m b = lift IE_TwanIdTimeStamp (TwanIdTimeStamp_unmarshal m b).
Proof. intros H. unfold decode_one. rewrite H. reflexivity. Qed.
Lemma disp_180 dec m b : at_ b 0 = Ok (E:=GTPV2Error) 180 -> decode_one dec m b = lift IE_OverloadControlInfo (OverloadControlInfo_unmarshal dec m b).
Proof. intros H. unfold decode_one. rewrite H. reflexivity. Qed.
Lemma disp_181 dec m b : at_ b 0 = Ok (E:=GTPV2Error) 181 -> decode_one dec m b = lift IE_LoadControlInfo (LoadControl_unmarshal dec m b).
Proof. intros H. unfold decode_one. rewrite H. reflexivity. Qed.
Lemma disp_182 dec m b : at_ b 0 = Ok (E:=GTPV2Error) 182 -> decode_one dec m b = lift IE_Metric (Metric_unmarshal m b).
Proof. intros H. unfold decode_one. rewrite H. reflexivity. Qed.
Lemma disp_183 dec m b : at_ b 0 = Ok (E:=GTPV2Error) 183 -> decode_one dec m b = lift IE_Sqn (Sqn_unmarshal m b).
Proof. intros H. unfold decode_one. rewrite H. reflexivity. Qed.
Lemma disp_184 dec m b : at_ b 0 = Ok (E:=GTPV2Error) 184 -> decode_one dec m b = lift IE_ApnRelativeCapacity (ApnRelativeCapacity_unmarshal m b).
Proof. intros H. unfold decode_one. rewrite H. reflexivity. Qed.
Lemma disp_185 dec m b : at_ b 0 = Ok (E:=GTPV2Error) 185 -> decode_one dec m b = lift IE_WlanOffloadIndication (WlanOffloadIndication_unmarshal m b).
Proof. intros H. unfold decode_one. rewrite H. reflexivity. Qed.
Lemma disp_186 dec m b : at_ b 0 = Ok (E:=GTPV2Error) 186 -> decode_one dec m b = lift IE_PagingServiceInfo (PagingServiceInfo_unmarshal m b).
Proof. intros H. unfold decode_one. rewrite H. reflexivity. Qed.
Lemma disp_187 dec m b : at_ b 0 = Ok (E:=GTPV2Error) 187 -> decode_one dec m b = lift IE_IntegerNumber (IntegerNumber_unmarshal m b).
Proof. intros H. unfold decode_one. rewrite H. reflexivity. Qed.
Lemma disp_188 dec m b : at_ b 0 = Ok (E:=GTPV2Error) 188 -> decode_one dec m b = lift IE_MilliSecondTimeStamp (MilliSecondTimeStamp_unmarshal m b).
Proof. intros H. unfold decode_one. rewrite H. reflexivity. Qed.
Lemma disp_189 dec m b : at_ b 0 = Ok (E:=GTPV2Error) 189 -> decode_one dec m b = lift IE_MonitoringEventInformation (MonitoringEventInformation_unmarshal m b).
Proof. intros H. unfold decode_one. rewrite H. reflexivity. Qed.
Lemma disp_190 dec m b : at_ b 0 = Ok (E:=GTPV2Error) 190 -> decode_one dec m b = lift IE_EcgiList (EcgiList_unmarshal m b).
Proof. intros H. unfold decode_one. rewrite H. reflexivity. Qed.
Lemma disp_191 dec m b : at_ b 0 = Ok (E:=GTPV2Error) 191 -> decode_one dec m b = lift IE_RemoteUeContext (RemoteUeContext_unmarshal dec m b).
Proof. intros H. unfold decode_one. rewrite H. reflexivity. Qed.
Lemma disp_192 dec m b : at_ b 0 = Ok (E:=GTPV2Error) 192 -> decode_one dec m b = lift IE_RemoteUserId (RemoteUserId_unmarshal m b).
Proof. intros H. unfold decode_one. rewrite H. reflexivity. Qed.
Lemma disp_193 dec m b : at_ b 0 = Ok (E:=GTPV2Error) 193 -> decode_one dec m b = lift IE_RemoteUeIpInformation (RemoteUeIpInformation_unmarshal m b).
Proof. intros H. unfold decode_one. rewrite H. reflexivity. Qed.
Lemma disp_194 dec m b : at_ b 0 = Ok (E:=GTPV2Error) 194 -> decode_one dec m b = lift IE_CIoTOptimizationSupportIndication (CIoTOptimizationSupportIndication_unmarshal m b).
Proof. intros H. unfold decode_one. rewrite H. reflexivity. Qed.
Lemma disp_195 dec m b : at_ b 0 = Ok (E:=GTPV2Error) 195 -> decode_one dec m b = lift IE_ScefPdnConnections (ScefPdnConnections_unmarshal dec m b).
Proof. intros H. unfold decode_one. rewrite H. reflexivity. Qed.
Lemma disp_196 dec m b : at_ b 0 = Ok (E:=GTPV2Error) 196 -> decode_one dec m b = lift IE_HeaderCompressionConfiguration (HeaderCompressionConfiguration_unmarshal m b).
Proof. intros H. unfold decode_one. rewrite H. reflexivity. Qed.
Lemma disp_197 dec m b : at_ b 0 = Ok (E:=GTPV2Error) 197 -> decode_one dec m b = lift IE_Epco (Epco_unmarshal m b).
Proof. intros H. unfold decode_one. rewrite H. reflexivity. Qed.
Lemma disp_198 dec m b : at_ b 0 = Ok (E:=GTPV2Error) 198 -> decode_one dec m b = lift IE_ServingPlmnRateControl (ServingPlmnRateControl_unmarshal m b).
Proof. intros H. unfold decode_one. rewrite H. reflexivity. Qed.
Lemma disp_199 dec m b : at_ b 0 = Ok (E:=GTPV2Error) 199 -> decode_one dec m b = lift IE_Counter (Counter_unmarshal m b).
Proof. intros H. unfold decode_one. rewrite H. reflexivity. Qed.
Lemma disp_200 dec m b : at_ b 0 = Ok (E:=GTPV2Error) 200 -> decode_one dec m b = lift IE_MappedUeUsageType (MappedUeUsageType_unmarshal m b).
Proof. intros H. unfold decode_one. rewrite H. reflexivity. Qed.
Lemma disp_201 dec m b : at_ b 0 = Ok (E:=GTPV2Error) 201 -> decode_one dec m b = lift IE_SecondaryRatUsageDataReport (SecondaryRatUsageDataReport_unmarshal m b).
Proof. intros H. unfold decode_one. rewrite H. reflexivity. Qed.
Lemma disp_202 dec m b : at_ b 0 = Ok (E:=GTPV2Error) 202 -> decode_one dec m b = lift IE_UpFunctionSelectionIndicationFlags (UpFunctionSelectionIndicationFlags_unmarshal m b).
Proof. intros H. unfold decode_one. rewrite H. reflexivity. Qed.
Lemma disp_203 dec m b : at_ b 0 = Ok (E:=GTPV2Error) 203 -> decode_one dec m b = lift IE_MaxPacketLossRate (MaxPacketLossRate_unmarshal m b).
Proof. intros H. unfold decode_one. rewrite H. reflexivity. Qed.
Lemma disp_204 dec m b : at_ b 0 = Ok (E:=GTPV2Error) 204 -> decode_one dec m b = lift IE_ApnRateControlStatus (ApnRateControlStatus_unmarshal m b).
Proof. intros H. unfold decode_one. rewrite H. reflexivity. Qed.
Lemma disp_205 dec m b : at_ b 0 = Ok (E:=GTPV2Error) 205 -> decode_one dec m b = lift IE_ExtendedTraceInformation (ExtendedTraceInformation_unmarshal m b).
Proof. intros H. unfold decode_one. rewrite H. reflexivity. Qed.
Lemma disp_206 dec m b : at_ b 0 = Ok (E:=GTPV2Error) 206 -> decode_one dec m b = lift IE_MonitoringEventExtensionInfo (MonitoringEventExtensionInfo_unmarshal m b).
Proof. intros H. unfold decode_one. rewrite H. reflexivity. Qed.
Lemma disp_207 dec m b : at_ b 0 = Ok (E:=GTPV2Error) 207 -> decode_one dec m b = lift IE_AdditionalRrmPolicyIndex (AdditionalRrmPolicyIndex_unmarshal m b).
Proof. intros H. unfold decode_one. rewrite H. reflexivity. Qed.
Lemma disp_208 dec m b : at_ b 0 = Ok (E:=GTPV2Error) 208 -> decode_one dec m b = lift IE_V2xInformation (V2xInformation_unmarshal dec m b).
Proof. intros H. unfold decode_one. rewrite H. reflexivity. Qed.
Lemma disp_209 dec m b : at_ b 0 = Ok (E:=GTPV2Error) 209 -> decode_one dec m b = lift IE_PC5QosParameters (PC5QosParameters_unmarshal dec m b).
Proof. intros H. unfold decode_one. rewrite H. reflexivity. Qed.
Lemma disp_210 dec m b : at_ b 0 = Ok (E:=GTPV2Error) 210 -> decode_one dec m b = lift IE_ServicesAuthorized (ServicesAuthorized_unmarshal m b).
Proof. intros H. unfold decode_one. rewrite H. reflexivity. Qed.
Lemma disp_211 dec m b : at_ b 0 = Ok (E:=GTPV2Error) 211 -> decode_one dec m b = lift IE_BitRate (BitRate_unmarshal m b).
Proof. intros H. unfold decode_one. rewrite H. reflexivity. Qed.
Lemma disp_212 dec m b : at_ b 0 = Ok (E:=GTPV2Error) 212 -> decode_one dec m b = lift IE_PC5QosFlow (PC5QosFlow_unmarshal m b).
Proof. intros H. unfold decode_one. rewrite H. reflexivity. Qed.
Lemma disp_213 dec m b : at_ b 0 = Ok (E:=GTPV2Error) 213 -> decode_one dec m b = lift IE_SgiPtpTunnelAddress (SgiPtpTunnelAddress_unmarshal m b).
Proof. intros H. unfold decode_one. rewrite H. reflexivity. Qed.
Lemma disp_214 dec m b : at_ b 0 = Ok (E:=GTPV2Error) 214 -> decode_one dec m b = lift IE_PgwChangeInfo (PgwChangeInfo_unmarshal dec m b).
Proof. intros H. unfold decode_one. rewrite H. reflexivity. Qed.
Lemma disp_215 dec m b : at_ b 0 = Ok (E:=GTPV2Error) 215 -> decode_one dec m b = lift IE_PgwFqdn (PgwFqdn_unmarshal m b).
Proof. intros H. unfold decode_one. rewrite H. reflexivity. Qed.
Lemma disp_216 dec m b : at_ b 0 = Ok (E:=GTPV2Error) 216 -> decode_one dec m b = lift IE_GroupId (GroupId_unmarshal m b).
Proof. intros H. unfold decode_one. rewrite H. reflexivity. Qed.
Lemma disp_217 dec m b : at_ b 0 = Ok (E:=GTPV2Error) 217 -> decode_one dec m b = lift IE_PSCellId (PSCellId_unmarshal m b).
Proof. intros H. unfold decode_one. rewrite H. reflexivity. Qed.
Lemma disp_218 dec m b : at_ b 0 = Ok (E:=GTPV2Error) 218 -> decode_one dec m b = lift IE_UpSecurityPolicy (UpSecurityPolicy_unmarshal m b).
Proof. intros H. unfold decode_one. rewrite H. reflexivity. Qed.
Lemma disp_219 dec m b : at_ b 0 = Ok (E:=GTPV2Error) 219 -> decode_one dec m b = lift IE_AlternativeImsi (AlternativeImsi_unmarshal m b).
Proof. intros H. unfold decode_one. rewrite H. reflexivity. Qed.
Lemma disp_254 dec m b : at_ b 0 = Ok (E:=GTPV2Error) 254 -> decode_one dec m b = lift IE_SpecialIEWithTypeExt (SpecialIEWithTypeExt_unmarshal m b).
Proof. intros H. unfold decode_one. rewrite H. reflexivity. Qed.
Lemma disp_255 dec m b : at_ b 0 = Ok (E:=GTPV2Error) 255 -> decode_one dec m b = lift IE_PrivateExtension (PrivateExtension_unmarshal m b).
Proof. intros H. unfold decode_one. rewrite H. reflexivity. Qed.
Lemma disp_103 dec m b : at_ b 0 = Ok (E:=GTPV2Error) 103 -> decode_one dec m b = lift IE_MmContext (MmContext_unmarshal m b).
Proof. intros H. unfold decode_one. rewrite H. reflexivity. Qed.
Lemma disp_104 dec m b : at_ b 0 = Ok (E:=GTPV2Error) 104 -> decode_one dec m b = lift IE_MmContext (MmContext_unmarshal m b).
Proof. intros H. unfold decode_one. rewrite H. reflexivity. Qed.
Lemma disp_105 dec m b : at_ b 0 = Ok (E:=GTPV2Error) 105 -> decode_one dec m b = lift IE_MmContext (MmContext_unmarshal m b).
Proof. intros H. unfold decode_one. rewrite H. reflexivity. Qed.
Lemma disp_106 dec m b : at_ b 0 = Ok (E:=GTPV2Error) 106 -> decode_one dec m b = lift IE_MmContext (MmContext_unmarshal m b).
Proof. intros H. unfold decode_one. rewrite H. reflexivity. Qed.
Lemma disp_107 dec m b : at_ b 0 = Ok (E:=GTPV2Error) 107 -> decode_one dec m b = lift IE_MmContext (MmContext_unmarshal m b).
Proof. intros H. unfold decode_one. rewrite H. reflexivity. Qed.
Lemma disp_108 dec m b : at_ b 0 = Ok (E:=GTPV2Error) 108 -> decode_one dec m b = lift IE_MmContext (MmContext_unmarshal m b).
Proof. intros H. unfold decode_one. rewrite H. reflexivity. Qed.

Lemma wf_head {A} T value (ok : A -> Prop) x r : wf_ie T value ok x -> at_ (marshal_ie T value x ++ r) 0 = Ok (E:=GTPV2Error) T.
Proof. reflexivity. Qed.
Lemma plain_rt dec m e r : ie_wf e -> routed e -> nest e = 0%nat -> decode_one dec m (ie_marshal e ++ r) = Ok e.
Proof.
  intros H R P. destruct e as [x|x|x|x|x|x|x|x|x|x|x|x|x|x|x|x|x|x|x|x|x|x|x|x|x|x|x|x|x|x|x|x|x|x|x|x|x|x|x|x|x|x|x|x|x|x|x|x|x|x|x|x|x|x|x|x|x|x|x|x|x|x|x|x|x|x|x|x|x|x|x|x|x|x|x|x|x|x|x|x|x|x|x|x|x|x|x|x|x|x|x|x|x|x|x|x|x|x|x|x|x|x|x|x|x|x|x|x|x|x|x|x|x|x|x|x|x|x|x|x|x|x|x|x|x|x|x|x|x|x|x|x|x|x|x|x|x|x|x|x|x|x|x|x|x|x]; cbn [ie_wf routed nest] in H, R, P; try discriminate; try contradiction; clear R P; unfold ie_marshal.
  - rewrite disp_1 by reflexivity. rewrite Imsi_rt by exact H. reflexivity.
  - rewrite disp_2 by reflexivity. rewrite Cause_rt by exact H. reflexivity.
  - rewrite disp_3 by reflexivity. rewrite Recovery_rt by exact H. reflexivity.
  - rewrite disp_51 by reflexivity. rewrite StnSr_rt by exact H. reflexivity.
  - rewrite disp_56 by reflexivity. rewrite SrvccCause_rt by exact H. reflexivity.
  - rewrite disp_71 by reflexivity. rewrite Apn_rt by exact H. reflexivity.
  - rewrite disp_72 by reflexivity. rewrite Ambr_rt by exact H. reflexivity.
  - rewrite disp_73 by reflexivity. rewrite Ebi_rt by exact H. reflexivity.
  - rewrite disp_74 by reflexivity. rewrite IpAddress_rt by exact H. reflexivity.
  - rewrite disp_75 by reflexivity. rewrite Mei_rt by exact H. reflexivity.
  - rewrite disp_76 by reflexivity. rewrite Msisdn_rt by exact H. reflexivity.
  - rewrite disp_77 by reflexivity. rewrite Indication_rt by exact H. reflexivity.
  - rewrite disp_78 by reflexivity. rewrite Pco_rt by exact H. reflexivity.
  - rewrite disp_79 by reflexivity. rewrite PdnAddressAllocation_rt by exact H. reflexivity.
  - rewrite disp_80 by reflexivity. rewrite BearerQos_rt by exact H. reflexivity.
  - rewrite disp_81 by reflexivity. rewrite FlowQos_rt by exact H. reflexivity.
  - rewrite disp_82 by reflexivity. rewrite RatType_rt by exact H. reflexivity.
  - rewrite disp_83 by reflexivity. rewrite ServingNetwork_rt by exact H. reflexivity.
  - rewrite disp_84 by reflexivity. rewrite BearerTft_rt by exact H. reflexivity.
  - rewrite disp_85 by reflexivity. rewrite TrafficAggregateDescription_rt by exact H. reflexivity.
  - rewrite disp_86 by (unfold Uli_marshal; destruct H as [-> _]; reflexivity). rewrite Uli_rt by exact H. reflexivity.
  - rewrite disp_87 by reflexivity. rewrite Fteid_rt by exact H. reflexivity.
  - rewrite disp_88 by reflexivity. rewrite Tmsi_rt by exact H. reflexivity.
  - rewrite disp_89 by reflexivity. rewrite GlobalCnId_rt by exact H. reflexivity.
  - rewrite disp_90 by reflexivity. rewrite S103pdf_rt by exact H. reflexivity.
  - rewrite disp_91 by reflexivity. rewrite S1udf_rt by exact H. reflexivity.
  - rewrite disp_92 by reflexivity. rewrite DelayValue_rt by exact H. reflexivity.
  - rewrite disp_94 by reflexivity. rewrite ChargingId_rt by exact H. reflexivity.
  - rewrite disp_95 by reflexivity. rewrite ChargingCharacteristics_rt by exact H. reflexivity.
  - rewrite disp_96 by reflexivity. rewrite TraceInformation_rt by exact H. reflexivity.
  - rewrite disp_97 by reflexivity. rewrite BearerFlags_rt by exact H. reflexivity.
  - rewrite disp_99 by reflexivity. rewrite PdnType_rt by exact H. reflexivity.
  - rewrite disp_100 by reflexivity. rewrite Pti_rt by exact H. reflexivity.
  - pose proof (MmContext_rt m x r H) as E. destruct x as [x|x|x|x|x|x]; cbn [MmContext_marshal] in *;
    [rewrite disp_107|rewrite disp_106|rewrite disp_108|rewrite disp_104|rewrite disp_103|rewrite disp_105]; try reflexivity; rewrite E; reflexivity.
  - rewrite disp_110 by reflexivity. rewrite PduNumbers_rt by exact H. reflexivity.
  - rewrite disp_111 by reflexivity. rewrite Ptmsi_rt by exact H. reflexivity.
  - rewrite disp_112 by reflexivity. rewrite PtmsiSignature_rt by exact H. reflexivity.
  - rewrite disp_113 by reflexivity. rewrite HopCounter_rt by exact H. reflexivity.
  - rewrite disp_114 by reflexivity. rewrite UeTimeZone_rt by exact H. reflexivity.
  - rewrite disp_116 by reflexivity. rewrite CompleteRequestMessage_rt by exact H. reflexivity.
  - rewrite disp_117 by reflexivity. rewrite Guti_rt by exact H. reflexivity.
  - rewrite disp_118 by reflexivity. rewrite Fcontainer_rt by exact H. reflexivity.
  - rewrite disp_119 by reflexivity. rewrite Fcause_rt by exact H. reflexivity.
  - rewrite disp_120 by reflexivity. rewrite PlmnId_rt by exact H. reflexivity.
  - rewrite disp_121 by reflexivity. rewrite TargetIdentification_rt by exact H. reflexivity.
  - rewrite disp_123 by reflexivity. rewrite PacketFlowId_rt by exact H. reflexivity.
  - rewrite disp_124 by reflexivity. rewrite RabContext_rt by exact H. reflexivity.
  - rewrite disp_125 by reflexivity. rewrite SourceRncPdcpContextInfo_rt by exact H. reflexivity.
  - rewrite disp_126 by reflexivity. rewrite PortNumber_rt by exact H. reflexivity.
  - rewrite disp_127 by reflexivity. rewrite ApnRestriction_rt by exact H. reflexivity.
  - rewrite disp_128 by reflexivity. rewrite SelectionMode_rt by exact H. reflexivity.
  - rewrite disp_129 by reflexivity. rewrite SourceIdentification_rt by exact H. reflexivity.
  - rewrite disp_131 by reflexivity. rewrite ChangeReportingAction_rt by exact H. reflexivity.
  - rewrite disp_132 by reflexivity. rewrite Fqcsid_rt by exact H. reflexivity.
  - rewrite disp_133 by reflexivity. rewrite ChannelNeeded_rt by exact H. reflexivity.
  - rewrite disp_134 by reflexivity. rewrite EmlppPriority_rt by exact H. reflexivity.
  - rewrite disp_135 by reflexivity. rewrite NodeType_rt by exact H. reflexivity.
  - rewrite disp_136 by reflexivity. rewrite Fqdn_rt by exact H. reflexivity.
  - rewrite disp_137 by reflexivity. rewrite TransactionIdentifier_rt by exact H. reflexivity.
  - rewrite disp_139 by reflexivity. rewrite MbmsServiceArea_rt by exact H. reflexivity.
  - rewrite disp_138 by reflexivity. rewrite MbmsSessionDuration_rt by exact H. reflexivity.
  - rewrite disp_140 by reflexivity. rewrite MbmsSessionId_rt by exact H. reflexivity.
  - rewrite disp_141 by reflexivity. rewrite MbmsFlowId_rt by exact H. reflexivity.
  - rewrite disp_142 by reflexivity. rewrite MbmsIpMulticastDistribution_rt by exact H. reflexivity.
  - rewrite disp_143 by reflexivity. rewrite MbmsDistributionAck_rt by exact H. reflexivity.
  - rewrite disp_144 by reflexivity. rewrite RfspIndex_rt by exact H. reflexivity.
  - rewrite disp_145 by reflexivity. rewrite Uci_rt by exact H. reflexivity.
  - rewrite disp_146 by reflexivity. rewrite CSGInformationReportingAction_rt by exact H. reflexivity.
  - rewrite disp_147 by reflexivity. rewrite CsgId_rt by exact H. reflexivity.
  - rewrite disp_148 by reflexivity. rewrite CsgMembershipIndication_rt by exact H. reflexivity.
  - rewrite disp_149 by reflexivity. rewrite ServiceIndicator_rt by exact H. reflexivity.
  - rewrite disp_150 by reflexivity. rewrite DetachType_rt by exact H. reflexivity.
  - rewrite disp_151 by reflexivity. rewrite Ldn_rt by exact H. reflexivity.
  - rewrite disp_152 by reflexivity. rewrite NodeFeatures_rt by exact H. reflexivity.
  - rewrite disp_153 by reflexivity. rewrite MbmsTimeToDataTransfer_rt by exact H. reflexivity.
  - rewrite disp_154 by reflexivity. rewrite Throttling_rt by exact H. reflexivity.
  - rewrite disp_155 by reflexivity. rewrite Arp_rt by exact H. reflexivity.
  - rewrite disp_156 by reflexivity. rewrite EpcTimer_rt by exact H. reflexivity.
  - rewrite disp_157 by reflexivity. rewrite Spi_rt by exact H. reflexivity.
  - rewrite disp_158 by reflexivity. rewrite Tmgi_rt by exact H. reflexivity.
  - rewrite disp_159 by reflexivity. rewrite AdditionalMmContextForSrvcc_rt by exact H. reflexivity.
  - rewrite disp_160 by reflexivity. rewrite AdditionalFlagsSrvcc_rt by exact H. reflexivity.
  - rewrite disp_162 by reflexivity. rewrite MdtConfiguration_rt by exact H. reflexivity.
  - rewrite disp_163 by reflexivity. rewrite Apco_rt by exact H. reflexivity.
  - rewrite disp_164 by reflexivity. rewrite AbsoluteTimeMbmsDataTransfer_rt by exact H. reflexivity.
  - rewrite disp_165 by reflexivity. rewrite HenbInfoReporting_rt by exact H. reflexivity.
  - rewrite disp_166 by reflexivity. rewrite Ip4Cp_rt by exact H. reflexivity.
  - rewrite disp_167 by reflexivity. rewrite ChangeToReportFlags_rt by exact H. reflexivity.
  - rewrite disp_168 by reflexivity. rewrite ActionIndication_rt by exact H. reflexivity.
  - rewrite disp_170 by reflexivity. rewrite UliTimestamp_rt by exact H. reflexivity.
  - rewrite disp_171 by reflexivity. rewrite MbmsFlags_rt by exact H. reflexivity.
  - rewrite disp_172 by reflexivity. rewrite RanNasCause_rt by exact H. reflexivity.
  - rewrite disp_173 by reflexivity. rewrite CnOperatorSelectionEntity_rt by exact H. reflexivity.
  - rewrite disp_174 by reflexivity. rewrite Twmi_rt by exact H. reflexivity.
  - rewrite disp_175 by reflexivity. rewrite NodeNumber_rt by exact H. reflexivity.
  - rewrite disp_176 by reflexivity. rewrite NodeIdentifier_rt by exact H. reflexivity.
  - rewrite disp_177 by reflexivity. rewrite PresenceReportingAreaAction_rt by exact H. reflexivity.
  - rewrite disp_178 by reflexivity. rewrite PresenceReportingAreaInformation_rt by exact H. reflexivity.
  - rewrite disp_179 by reflexivity. rewrite TwanIdTimeStamp_rt by exact H. reflexivity.
  - rewrite disp_182 by reflexivity. rewrite Metric_rt by exact H. reflexivity.
  - rewrite disp_183 by reflexivity. rewrite Sqn_rt by exact H. reflexivity.
  - rewrite disp_184 by reflexivity. rewrite ApnRelativeCapacity_rt by exact H. reflexivity.
  - rewrite disp_185 by reflexivity. rewrite WlanOffloadIndication_rt by exact H. reflexivity.
  - rewrite disp_186 by reflexivity. rewrite PagingServiceInfo_rt by exact H. reflexivity.
  - rewrite disp_187 by reflexivity. rewrite IntegerNumber_rt by exact H. reflexivity.
  - rewrite disp_188 by reflexivity. rewrite MilliSecondTimeStamp_rt by exact H. reflexivity.
  - rewrite disp_189 by reflexivity. rewrite MonitoringEventInformation_rt by exact H. reflexivity.
  - rewrite disp_190 by reflexivity. rewrite EcgiList_rt by exact H. reflexivity.
  - rewrite disp_192 by reflexivity. rewrite RemoteUserId_rt by exact H. reflexivity.
  - rewrite disp_193 by reflexivity. rewrite RemoteUeIpInformation_rt by exact H. reflexivity.
  - rewrite disp_194 by reflexivity. rewrite CIoTOptimizationSupportIndication_rt by exact H. reflexivity.
  - rewrite disp_196 by reflexivity. rewrite HeaderCompressionConfiguration_rt by exact H. reflexivity.
  - rewrite disp_197 by reflexivity. rewrite Epco_rt by exact H. reflexivity.
  - rewrite disp_198 by reflexivity. rewrite ServingPlmnRateControl_rt by exact H. reflexivity.
  - rewrite disp_199 by reflexivity. rewrite Counter_rt by exact H. reflexivity.
  - rewrite disp_200 by reflexivity. rewrite MappedUeUsageType_rt by exact H. reflexivity.
  - rewrite disp_201 by reflexivity. rewrite SecondaryRatUsageDataReport_rt by exact H. reflexivity.
  - rewrite disp_202 by reflexivity. rewrite UpFunctionSelectionIndicationFlags_rt by exact H. reflexivity.
  - rewrite disp_203 by reflexivity. rewrite MaxPacketLossRate_rt by exact H. reflexivity.
  - rewrite disp_204 by reflexivity. rewrite ApnRateControlStatus_rt by exact H. reflexivity.
  - rewrite disp_205 by reflexivity. rewrite ExtendedTraceInformation_rt by exact H. reflexivity.
  - rewrite disp_206 by reflexivity. rewrite MonitoringEventExtensionInfo_rt by exact H. reflexivity.
  - rewrite disp_207 by reflexivity. rewrite AdditionalRrmPolicyIndex_rt by exact H. reflexivity.
  - rewrite disp_210 by reflexivity. rewrite ServicesAuthorized_rt by exact H. reflexivity.
  - rewrite disp_211 by reflexivity. rewrite BitRate_rt by exact H. reflexivity.
  - rewrite disp_212 by reflexivity. rewrite PC5QosFlow_rt by exact H. reflexivity.
  - rewrite disp_213 by reflexivity. rewrite SgiPtpTunnelAddress_rt by exact H. reflexivity.
  - rewrite disp_215 by reflexivity. rewrite PgwFqdn_rt by exact H. reflexivity.
  - rewrite disp_216 by reflexivity. rewrite GroupId_rt by exact H. reflexivity.
  - rewrite disp_217 by reflexivity. rewrite PSCellId_rt by exact H. reflexivity.
  - rewrite disp_218 by reflexivity. rewrite UpSecurityPolicy_rt by exact H. reflexivity.
  - rewrite disp_219 by reflexivity. rewrite AlternativeImsi_rt by exact H. reflexivity.
  - rewrite disp_254 by reflexivity. rewrite SpecialIEWithTypeExt_rt by exact H. reflexivity.
  - rewrite disp_255 by reflexivity. rewrite PrivateExtension_rt by exact H. reflexivity.
Qed.
Lemma ie_len_rt m e : ie_wf e -> ie_len m e = Ok (length (ie_marshal e)).
Proof.
  intros H. destruct e as [x|x|x|x|x|x|x|x|x|x|x|x|x|x|x|x|x|x|x|x|x|x|x|x|x|x|x|x|x|x|x|x|x|x|x|x|x|x|x|x|x|x|x|x|x|x|x|x|x|x|x|x|x|x|x|x|x|x|x|x|x|x|x|x|x|x|x|x|x|x|x|x|x|x|x|x|x|x|x|x|x|x|x|x|x|x|x|x|x|x|x|x|x|x|x|x|x|x|x|x|x|x|x|x|x|x|x|x|x|x|x|x|x|x|x|x|x|x|x|x|x|x|x|x|x|x|x|x|x|x|x|x|x|x|x|x|x|x|x|x|x|x|x|x|x|x]; cbn [ie_wf] in H; unfold ie_len, ie_marshal.
  - apply Imsi_lenok. exact H.
  - apply Cause_lenok. exact H.
  - apply Recovery_lenok. exact H.
  - apply StnSr_lenok. exact H.
  - apply SrvccCause_lenok. exact H.
  - apply Apn_lenok. exact H.
  - apply Ambr_lenok. exact H.
  - apply Ebi_lenok. exact H.
  - apply IpAddress_lenok. exact H.
  - apply Mei_lenok. exact H.
  - apply Msisdn_lenok. exact H.
  - apply Indication_lenok. exact H.
  - apply Pco_lenok. exact H.
  - apply PdnAddressAllocation_lenok. exact H.
  - apply BearerQos_lenok. exact H.
  - apply FlowQos_lenok. exact H.
  - apply RatType_lenok. exact H.
  - apply ServingNetwork_lenok. exact H.
  - apply BearerTft_lenok. exact H.
  - apply TrafficAggregateDescription_lenok. exact H.
  - apply Uli_lenok. exact H.
  - apply Fteid_lenok. exact H.
  - apply Tmsi_lenok. exact H.
  - apply GlobalCnId_lenok. exact H.
  - apply S103pdf_lenok. exact H.
  - apply S1udf_lenok. exact H.
  - apply DelayValue_lenok. exact H.
  - exact (len_usize_exact _ _ _ x H).
  - apply ChargingId_lenok. exact H.
  - apply ChargingCharacteristics_lenok. exact H.
  - apply TraceInformation_lenok. exact H.
  - apply BearerFlags_lenok. exact H.
  - apply PdnType_lenok. exact H.
  - apply Pti_lenok. exact H.
  - apply MmContext_lenok. exact H.
  - exact (len_usize_exact _ _ _ x H).
  - apply PduNumbers_lenok. exact H.
  - apply Ptmsi_lenok. exact H.
  - apply PtmsiSignature_lenok. exact H.
  - apply HopCounter_lenok. exact H.
  - apply UeTimeZone_lenok. exact H.
  - apply TraceReference_lenok. exact H.
  - apply CompleteRequestMessage_lenok. exact H.
  - apply Guti_lenok. exact H.
  - apply Fcontainer_lenok. exact H.
  - apply Fcause_lenok. exact H.
  - apply PlmnId_lenok. exact H.
  - apply TargetIdentification_lenok. exact H.
  - apply PacketFlowId_lenok. exact H.
  - apply RabContext_lenok. exact H.
  - apply SourceRncPdcpContextInfo_lenok. exact H.
  - apply PortNumber_lenok. exact H.
  - apply ApnRestriction_lenok. exact H.
  - apply SelectionMode_lenok. exact H.
  - apply SourceIdentification_lenok. exact H.
  - apply ChangeReportingAction_lenok. exact H.
  - apply Fqcsid_lenok. exact H.
  - apply ChannelNeeded_lenok. exact H.
  - apply EmlppPriority_lenok. exact H.
  - apply NodeType_lenok. exact H.
  - apply Fqdn_lenok. exact H.
  - apply TransactionIdentifier_lenok. exact H.
  - apply MbmsServiceArea_lenok. exact H.
  - apply MbmsSessionDuration_lenok. exact H.
  - apply MbmsSessionId_lenok. exact H.
  - apply MbmsFlowId_lenok. exact H.
  - apply MbmsIpMulticastDistribution_lenok. exact H.
  - apply MbmsDistributionAck_lenok. exact H.
  - apply RfspIndex_lenok. exact H.
  - apply Uci_lenok. exact H.
  - apply CSGInformationReportingAction_lenok. exact H.
  - apply CsgId_lenok. exact H.
  - apply CsgMembershipIndication_lenok. exact H.
  - apply ServiceIndicator_lenok. exact H.
  - apply DetachType_lenok. exact H.
  - apply Ldn_lenok. exact H.
  - apply NodeFeatures_lenok. exact H.
  - apply MbmsTimeToDataTransfer_lenok. exact H.
  - apply Throttling_lenok. exact H.
  - apply Arp_lenok. exact H.
  - apply EpcTimer_lenok. exact H.
  - apply Spi_lenok. exact H.
  - apply Tmgi_lenok. exact H.
  - apply AdditionalMmContextForSrvcc_lenok. exact H.
  - apply AdditionalFlagsSrvcc_lenok. exact H.
  - apply MdtConfiguration_lenok. exact H.
  - apply Apco_lenok. exact H.
  - apply AbsoluteTimeMbmsDataTransfer_lenok. exact H.
  - apply HenbInfoReporting_lenok. exact H.
  - apply Ip4Cp_lenok. exact H.
  - apply ChangeToReportFlags_lenok. exact H.
  - apply ActionIndication_lenok. exact H.
  - apply TwanId_lenok. exact H.
  - apply UliTimestamp_lenok. exact H.
  - apply MbmsFlags_lenok. exact H.
  - apply RanNasCause_lenok. exact H.
  - apply CnOperatorSelectionEntity_lenok. exact H.
  - apply Twmi_lenok. exact H.
  - apply NodeNumber_lenok. exact H.
  - apply NodeIdentifier_lenok. exact H.
  - apply PresenceReportingAreaAction_lenok. exact H.
  - apply PresenceReportingAreaInformation_lenok. exact H.
  - apply TwanIdTimeStamp_lenok. exact H.
  - exact (len_usize_exact _ _ _ x H).
  - exact (len_usize_exact _ _ _ x H).
  - apply Metric_lenok. exact H.
  - apply Sqn_lenok. exact H.
  - apply ApnRelativeCapacity_lenok. exact H.
  - apply WlanOffloadIndication_lenok. exact H.
  - apply PagingServiceInfo_lenok. exact H.
  - apply IntegerNumber_lenok. exact H.
  - apply MilliSecondTimeStamp_lenok. exact H.
  - apply MonitoringEventInformation_lenok. exact H.
  - apply EcgiList_lenok. exact H.
  - exact (len_usize_exact _ _ _ x H).
  - apply RemoteUserId_lenok. exact H.
  - apply RemoteUeIpInformation_lenok. exact H.
  - apply CIoTOptimizationSupportIndication_lenok. exact H.
  - exact (len_usize_exact _ _ _ x H).
  - apply HeaderCompressionConfiguration_lenok. exact H.
  - apply Epco_lenok. exact H.
  - apply ServingPlmnRateControl_lenok. exact H.
  - apply Counter_lenok. exact H.
  - apply MappedUeUsageType_lenok. exact H.
  - apply SecondaryRatUsageDataReport_lenok. exact H.
  - apply UpFunctionSelectionIndicationFlags_lenok. exact H.
  - apply MaxPacketLossRate_lenok. exact H.
  - apply ApnRateControlStatus_lenok. exact H.
  - apply ExtendedTraceInformation_lenok. exact H.
  - apply MonitoringEventExtensionInfo_lenok. exact H.
  - apply AdditionalRrmPolicyIndex_lenok. exact H.
  - exact (len_usize_exact _ _ _ x H).
  - exact (len_usize_exact _ _ _ x H).
  - apply ServicesAuthorized_lenok. exact H.
  - apply BitRate_lenok. exact H.
  - apply PC5QosFlow_lenok. exact H.
  - apply SgiPtpTunnelAddress_lenok. exact H.
  - exact (len_usize_exact _ _ _ x H).
  - apply PgwFqdn_lenok. exact H.
  - apply GroupId_lenok. exact H.
  - apply PSCellId_lenok. exact H.
  - apply UpSecurityPolicy_lenok. exact H.
  - apply AlternativeImsi_lenok. exact H.
  - apply SpecialIEWithTypeExt_lenok. exact H.
  - apply PrivateExtension_lenok. exact H.
  - apply Unknown_lenok. exact H.
Qed.
Lemma ie_marshal_pos e : (4 <= length (ie_marshal e))%nat.
Proof.
  destruct e as [x|x|x|x|x|x|x|x|x|x|x|x|x|x|x|x|x|x|x|x|x|x|x|x|x|x|x|x|x|x|x|x|x|x|x|x|x|x|x|x|x|x|x|x|x|x|x|x|x|x|x|x|x|x|x|x|x|x|x|x|x|x|x|x|x|x|x|x|x|x|x|x|x|x|x|x|x|x|x|x|x|x|x|x|x|x|x|x|x|x|x|x|x|x|x|x|x|x|x|x|x|x|x|x|x|x|x|x|x|x|x|x|x|x|x|x|x|x|x|x|x|x|x|x|x|x|x|x|x|x|x|x|x|x|x|x|x|x|x|x|x|x|x|x|x|x]; unfold ie_marshal.
  - unfold Imsi_marshal, marshal_ie; rewrite tliv_length; lia.
  - unfold Cause_marshal, marshal_ie; rewrite tliv_length; lia.
  - unfold Recovery_marshal, marshal_ie; rewrite tliv_length; lia.
  - unfold StnSr_marshal, marshal_ie; rewrite tliv_length; lia.
  - unfold SrvccCause_marshal, marshal_ie; rewrite tliv_length; lia.
  - unfold Apn_marshal, marshal_ie; rewrite tliv_length; lia.
  - unfold Ambr_marshal, marshal_ie; rewrite tliv_length; lia.
  - unfold Ebi_marshal, marshal_ie; rewrite tliv_length; lia.
  - unfold IpAddress_marshal, marshal_ie; rewrite tliv_length; lia.
  - unfold Mei_marshal, marshal_ie; rewrite tliv_length; lia.
  - unfold Msisdn_marshal, marshal_ie; rewrite tliv_length; lia.
  - unfold Indication_marshal, marshal_ie; rewrite tliv_length; lia.
  - unfold Pco_marshal, marshal_ie; rewrite tliv_length; lia.
  - unfold PdnAddressAllocation_marshal, marshal_ie; rewrite tliv_length; lia.
  - unfold BearerQos_marshal, marshal_ie; rewrite tliv_length; lia.
  - unfold FlowQos_marshal, marshal_ie; rewrite tliv_length; lia.
  - unfold RatType_marshal, marshal_ie; rewrite tliv_length; lia.
  - unfold ServingNetwork_marshal, marshal_ie; rewrite tliv_length; lia.
  - unfold BearerTft_marshal, marshal_ie; rewrite tliv_length; lia.
  - unfold TrafficAggregateDescription_marshal, marshal_ie; rewrite tliv_length; lia.
  - unfold Uli_marshal, marshal_ie; rewrite tliv_length; lia.
  - unfold Fteid_marshal, marshal_ie; rewrite tliv_length; lia.
  - unfold Tmsi_marshal, marshal_ie; rewrite tliv_length; lia.
  - unfold GlobalCnId_marshal, marshal_ie; rewrite tliv_length; lia.
  - unfold S103pdf_marshal, marshal_ie; rewrite tliv_length; lia.
  - unfold S1udf_marshal, marshal_ie; rewrite tliv_length; lia.
  - unfold DelayValue_marshal, marshal_ie; rewrite tliv_length; lia.
  - unfold BearerContext_marshal, marshal_ie; rewrite tliv_length; lia.
  - unfold ChargingId_marshal, marshal_ie; rewrite tliv_length; lia.
  - unfold ChargingCharacteristics_marshal, marshal_ie; rewrite tliv_length; lia.
  - unfold TraceInformation_marshal, marshal_ie; rewrite tliv_length; lia.
  - unfold BearerFlags_marshal, marshal_ie; rewrite tliv_length; lia.
  - unfold PdnType_marshal, marshal_ie; rewrite tliv_length; lia.
  - unfold Pti_marshal, marshal_ie; rewrite tliv_length; lia.
  - destruct x; unfold MmContext_marshal; match goal with |- (4 <= length (?f x))%nat => unfold f, marshal_ie end; rewrite tliv_length; lia.
  - unfold PdnConnections_marshal, marshal_ie; rewrite tliv_length; lia.
  - unfold PduNumbers_marshal, marshal_ie; rewrite tliv_length; lia.
  - unfold Ptmsi_marshal, marshal_ie; rewrite tliv_length; lia.
  - unfold PtmsiSignature_marshal, marshal_ie; rewrite tliv_length; lia.
  - unfold HopCounter_marshal, marshal_ie; rewrite tliv_length; lia.
  - unfold UeTimeZone_marshal, marshal_ie; rewrite tliv_length; lia.
  - unfold TraceReference_marshal, marshal_ie; rewrite tliv_length; lia.
  - unfold CompleteRequestMessage_marshal, marshal_ie; rewrite tliv_length; lia.
  - unfold Guti_marshal, marshal_ie; rewrite tliv_length; lia.
  - unfold Fcontainer_marshal, marshal_ie; rewrite tliv_length; lia.
  - unfold Fcause_marshal, marshal_ie; rewrite tliv_length; lia.
  - unfold PlmnId_marshal, marshal_ie; rewrite tliv_length; lia.
  - unfold TargetIdentification_marshal, marshal_ie; rewrite tliv_length; lia.
  - unfold PacketFlowId_marshal, marshal_ie; rewrite tliv_length; lia.
  - unfold RabContext_marshal, marshal_ie; rewrite tliv_length; lia.
  - unfold SourceRncPdcpContextInfo_marshal, marshal_ie; rewrite tliv_length; lia.
  - unfold PortNumber_marshal, marshal_ie; rewrite tliv_length; lia.
  - unfold ApnRestriction_marshal, marshal_ie; rewrite tliv_length; lia.
  - unfold SelectionMode_marshal, marshal_ie; rewrite tliv_length; lia.
  - unfold SourceIdentification_marshal, marshal_ie; rewrite tliv_length; lia.
  - unfold ChangeReportingAction_marshal, marshal_ie; rewrite tliv_length; lia.
  - unfold Fqcsid_marshal, marshal_ie; rewrite tliv_length; lia.
  - unfold ChannelNeeded_marshal, marshal_ie; rewrite tliv_length; lia.
  - unfold EmlppPriority_marshal, marshal_ie; rewrite tliv_length; lia.
  - unfold NodeType_marshal, marshal_ie; rewrite tliv_length; lia.
  - unfold Fqdn_marshal, marshal_ie; rewrite tliv_length; lia.
  - unfold TransactionIdentifier_marshal, marshal_ie; rewrite tliv_length; lia.
  - unfold MbmsServiceArea_marshal, marshal_ie; rewrite tliv_length; lia.
  - unfold MbmsSessionDuration_marshal, marshal_ie; rewrite tliv_length; lia.
  - unfold MbmsSessionId_marshal, marshal_ie; rewrite tliv_length; lia.
  - unfold MbmsFlowId_marshal, marshal_ie; rewrite tliv_length; lia.
  - unfold MbmsIpMulticastDistribution_marshal, marshal_ie; rewrite tliv_length; lia.
  - unfold MbmsDistributionAck_marshal, marshal_ie; rewrite tliv_length; lia.
  - unfold RfspIndex_marshal, marshal_ie; rewrite tliv_length; lia.
  - unfold Uci_marshal, marshal_ie; rewrite tliv_length; lia.
  - unfold CSGInformationReportingAction_marshal, marshal_ie; rewrite tliv_length; lia.
  - unfold CsgId_marshal, marshal_ie; rewrite tliv_length; lia.
  - unfold CsgMembershipIndication_marshal, marshal_ie; rewrite tliv_length; lia.
  - unfold ServiceIndicator_marshal, marshal_ie; rewrite tliv_length; lia.
  - unfold DetachType_marshal, marshal_ie; rewrite tliv_length; lia.
  - unfold Ldn_marshal, marshal_ie; rewrite tliv_length; lia.
  - unfold NodeFeatures_marshal, marshal_ie; rewrite tliv_length; lia.
  - unfold MbmsTimeToDataTransfer_marshal, marshal_ie; rewrite tliv_length; lia.
  - unfold Throttling_marshal, marshal_ie; rewrite tliv_length; lia.
  - unfold Arp_marshal, marshal_ie; rewrite tliv_length; lia.
  - unfold EpcTimer_marshal, marshal_ie; rewrite tliv_length; lia.
  - unfold Spi_marshal, marshal_ie; rewrite tliv_length; lia.
  - unfold Tmgi_marshal, marshal_ie; rewrite tliv_length; lia.
  - unfold AdditionalMmContextForSrvcc_marshal, marshal_ie; rewrite tliv_length; lia.
  - unfold AdditionalFlagsSrvcc_marshal, marshal_ie; rewrite tliv_length; lia.
  - unfold MdtConfiguration_marshal, marshal_ie; rewrite tliv_length; lia.
  - unfold Apco_marshal, marshal_ie; rewrite tliv_length; lia.
  - unfold AbsoluteTimeMbmsDataTransfer_marshal, marshal_ie; rewrite tliv_length; lia.
  - unfold HenbInfoReporting_marshal, marshal_ie; rewrite tliv_length; lia.
  - unfold Ip4Cp_marshal, marshal_ie; rewrite tliv_length; lia.
  - unfold ChangeToReportFlags_marshal, marshal_ie; rewrite tliv_length; lia.
  - unfold ActionIndication_marshal, marshal_ie; rewrite tliv_length; lia.
  - unfold TwanId_marshal, marshal_ie; rewrite tliv_length; lia.
  - unfold UliTimestamp_marshal, marshal_ie; rewrite tliv_length; lia.
  - unfold MbmsFlags_marshal, marshal_ie; rewrite tliv_length; lia.
  - unfold RanNasCause_marshal, marshal_ie; rewrite tliv_length; lia.
  - unfold CnOperatorSelectionEntity_marshal, marshal_ie; rewrite tliv_length; lia.
  - unfold Twmi_marshal, marshal_ie; rewrite tliv_length; lia.
  - unfold NodeNumber_marshal, marshal_ie; rewrite tliv_length; lia.
  - unfold NodeIdentifier_marshal, marshal_ie; rewrite tliv_length; lia.
  - unfold PresenceReportingAreaAction_marshal, marshal_ie; rewrite tliv_length; lia.
  - unfold PresenceReportingAreaInformation_marshal, marshal_ie; rewrite tliv_length; lia.
  - unfold TwanIdTimeStamp_marshal, marshal_ie; rewrite tliv_length; lia.
  - unfold OverloadControlInfo_marshal, marshal_ie; rewrite tliv_length; lia.
  - unfold LoadControl_marshal, marshal_ie; rewrite tliv_length; lia.
  - unfold Metric_marshal, marshal_ie; rewrite tliv_length; lia.
  - unfold Sqn_marshal, marshal_ie; rewrite tliv_length; lia.
  - unfold ApnRelativeCapacity_marshal, marshal_ie; rewrite tliv_length; lia.
  - unfold WlanOffloadIndication_marshal, marshal_ie; rewrite tliv_length; lia.
  - unfold PagingServiceInfo_marshal, marshal_ie; rewrite tliv_length; lia.
  - unfold IntegerNumber_marshal, marshal_ie; rewrite tliv_length; lia.
  - unfold MilliSecondTimeStamp_marshal, marshal_ie; rewrite tliv_length; lia.
  - unfold MonitoringEventInformation_marshal, marshal_ie; rewrite tliv_length; lia.
  - unfold EcgiList_marshal, marshal_ie; rewrite tliv_length; lia.
  - unfold RemoteUeContext_marshal, marshal_ie; rewrite tliv_length; lia.
  - unfold RemoteUserId_marshal, marshal_ie; rewrite tliv_length; lia.
  - unfold RemoteUeIpInformation_marshal, marshal_ie; rewrite tliv_length; lia.
  - unfold CIoTOptimizationSupportIndication_marshal, marshal_ie; rewrite tliv_length; lia.
  - unfold ScefPdnConnections_marshal, marshal_ie; rewrite tliv_length; lia.
  - unfold HeaderCompressionConfiguration_marshal, marshal_ie; rewrite tliv_length; lia.
  - unfold Epco_marshal, marshal_ie; rewrite tliv_length; lia.
  - unfold ServingPlmnRateControl_marshal, marshal_ie; rewrite tliv_length; lia.
  - unfold Counter_marshal, marshal_ie; rewrite tliv_length; lia.
  - unfold MappedUeUsageType_marshal, marshal_ie; rewrite tliv_length; lia.
  - unfold SecondaryRatUsageDataReport_marshal, marshal_ie; rewrite tliv_length; lia.
  - unfold UpFunctionSelectionIndicationFlags_marshal, marshal_ie; rewrite tliv_length; lia.
  - unfold MaxPacketLossRate_marshal, marshal_ie; rewrite tliv_length; lia.
  - unfold ApnRateControlStatus_marshal, marshal_ie; rewrite tliv_length; lia.
  - unfold ExtendedTraceInformation_marshal, marshal_ie; rewrite tliv_length; lia.
  - unfold MonitoringEventExtensionInfo_marshal, marshal_ie; rewrite tliv_length; lia.
  - unfold AdditionalRrmPolicyIndex_marshal, marshal_ie; rewrite tliv_length; lia.
  - unfold V2xInformation_marshal, marshal_ie; rewrite tliv_length; lia.
  - unfold PC5QosParameters_marshal, marshal_ie; rewrite tliv_length; lia.
  - unfold ServicesAuthorized_marshal, marshal_ie; rewrite tliv_length; lia.
  - unfold BitRate_marshal, marshal_ie; rewrite tliv_length; lia.
  - unfold PC5QosFlow_marshal, marshal_ie; rewrite tliv_length; lia.
  - unfold SgiPtpTunnelAddress_marshal, marshal_ie; rewrite tliv_length; lia.
  - unfold PgwChangeInfo_marshal, marshal_ie; rewrite tliv_length; lia.
  - unfold PgwFqdn_marshal, marshal_ie; rewrite tliv_length; lia.
  - unfold GroupId_marshal, marshal_ie; rewrite tliv_length; lia.
  - unfold PSCellId_marshal, marshal_ie; rewrite tliv_length; lia.
  - unfold UpSecurityPolicy_marshal, marshal_ie; rewrite tliv_length; lia.
  - unfold AlternativeImsi_marshal, marshal_ie; rewrite tliv_length; lia.
  - unfold SpecialIEWithTypeExt_marshal, marshal_ie; rewrite tliv_length; lia.
  - unfold PrivateExtension_marshal, marshal_ie; rewrite tliv_length; lia.
  - unfold Unknown_marshal, marshal_ie; rewrite tliv_length; lia.
Qed.

(* lists of IEs *)
Lemma ie_loop_rt one m l : (forall e r, In e l -> one (ie_marshal e ++ r) = Ok e) -> (forall e, In e l -> ie_wf e) ->
  forall fuel, (length (encoder l) <= fuel)%nat -> ie_loop one m fuel (encoder l) = Ok l.
Proof.
  induction l as [|e l IH]; intros H W fuel F; [destruct fuel; reflexivity|].
  unfold encoder in *. cbn [map concat] in *. rewrite app_length in F. pose proof (ie_marshal_pos e) as P.
  destruct fuel as [|fuel]; [lia|].
  assert (N : exists x y, ie_marshal e ++ concat (map ie_marshal l) = x :: y).
  { destruct (ie_marshal e); [cbn in P; lia|]. eexists. eexists. reflexivity. }
  destruct N as (x & y & N). assert (S1 : ie_loop one m (S fuel) (x :: y) = let? e := one (x :: y) in let? n := ie_len m e in let? r := ie_loop one m fuel (skipn n (x :: y)) in Ok (e :: r)) by reflexivity.
  rewrite N, S1, <- N. rewrite H by (left; reflexivity). bk. rewrite ie_len_rt by (apply W; left; reflexivity). bk.
  rewrite skipn_app, skipn_all, Nat.sub_diag. cbn [skipn app]. rewrite IH; [reflexivity| | |lia].
  - intros. apply H. right. assumption.
  - intros. apply W. right. assumption.
Qed.

Definition good (d : nat) (e : ie) : Prop := ie_wf e /\ routed e /\ (nest e <= d)%nat.
Lemma decode_list d m l : (forall e r, good d e -> decode_one (decode_ies d m) m (ie_marshal e ++ r) = Ok e) ->
  Forall (good d) l -> decode_ies (S d) m (encoder l) = Ok l.
Proof.
  intros H G. rewrite Forall_forall in G. cbn [decode_ies]. apply ie_loop_rt; [| |lia].
  - intros e r He. apply H. apply G, He.
  - intros e He. apply (G e He).
Qed.

(* grouped IEs *)
Lemma grouped_rt {A} dec m T value (ok : A -> Prop) x r l : wf_ie T value ok x -> value (ie_v x) <> [] -> dec (value (ie_v x)) = Ok l ->
  GroupedIe_unmarshal dec m (marshal_ie T value x ++ r) = Ok (mkIe T (ie_length x) (ie_ins x) l).
Proof.
  intros H Hv Hd. destruct (ie_open _ _ _ x r H) as (h & w & E & Hbe). rewrite E. clear E. destruct H as (Ht & Hi & Hl & Hn & _). destruct x as [t len ins v]. cbn [ie_t ie_length ie_ins ie_v] in *.
  apply nonempty_len in Hv. unfold GroupedIe_unmarshal. cbn [length Nat.leb MIN_IE_SIZE]. rewrite at_0. bk. rewrite hdr4_cons, Hbe. rewrite checked_ok by lens. rewrite end16_ok by lia. bk.
  rewrite slice4 by lens. bk. rewrite Hd. bk. reflexivity.
Qed.
Lemma many_in {A} (wf : Tliv A -> Prop) ok (c : Tliv A -> ie) (P : ie -> Prop) l : Forall (mem wf ok) l -> (forall x, wf x -> P (c x)) -> Forall P (map c l).
Proof. intros H K. induction H as [|x l [Hx _] _ IH]; cbn; constructor; auto. Qed.
Lemma opt_in {A} (wf : Tliv A -> Prop) ok (c : Tliv A -> ie) (P : ie -> Prop) o : opt_ok (mem wf ok) o -> (forall x, wf x -> P (c x)) -> Forall P (opt_ies c o).
Proof. intros H K. destruct o as [x|]; cbn in *; constructor; [apply K, H|constructor]. Qed.
Lemma one_in {A} (wf : Tliv A -> Prop) ok (c : Tliv A -> ie) (P : ie -> Prop) x : mem wf ok x -> (forall x, wf x -> P (c x)) -> Forall P [c x].
Proof. intros H K. constructor; [apply K, H|constructor]. Qed.
Ltac all_good := repeat (apply Forall_app; split); ((eapply many_in || eapply opt_in || eapply one_in || constructor); [eassumption|intros ? ?; split; [assumption|split; [exact I|cbn; lia]]]).
Lemma value_pos {A} (f : A -> list N) l e r : l = e :: r -> encoder l <> [].
Proof. intros -> H. pose proof (ie_marshal_pos e) as P. unfold encoder in H. cbn in H. apply app_eq_nil in H. destruct H as [H _]. rewrite H in P. cbn in P. lia. Qed.
Lemma LoadControl_good v : LoadControl_ok v -> Forall (good 0) (LoadControl_members v).
Proof.
  intros (H0 & H1 & H2). unfold LoadControl_members.
  destruct H2 as [->|(k & -> & Hk)]; cbn [V2Grouped.opt_list map].
  - rewrite app_nil_r. all_good.
  - all_good.
Qed.
Lemma LoadControl_nonempty v : LoadControl_ok v -> LoadControl_value v <> [].
Proof.
  intros (H0 & H1 & H2). rewrite <- LoadControl_members_value.
  unfold LoadControl_members.
  all: eapply value_pos; [exact (fun _ : unit => [])|reflexivity].
Qed.
Lemma LoadControl_rt dec m x r : LoadControl_wf x -> dec (encoder (LoadControl_members (ie_v x))) = Ok (LoadControl_members (ie_v x)) ->
  LoadControl_unmarshal dec m (LoadControl_marshal x ++ r) = Ok x.
Proof.
  intros H D. rewrite LoadControl_members_value in D. unfold LoadControl_unmarshal, LoadControl_marshal. pose proof H as (Ht & _ & _ & _ & Hv).
  rewrite (grouped_rt dec m _ _ _ x r _ H (LoadControl_nonempty _ Hv) D). bk. unfold regroup. cbn [ie_t ie_length ie_ins ie_v]. rewrite LoadControl_from_members by exact Hv.
  cbv zeta. cbn [ie_v]. destruct Hv as (H0 & H1 & H2). destruct H2 as [E|(k & E & _)]; rewrite E; cbn [V2Grouped.opt_list length Nat.ltb Nat.leb]; destruct x; cbn in *; subst; reflexivity.
Qed.
Lemma OverloadControlInfo_good v : OverloadControlInfo_ok v -> Forall (good 0) (OverloadControlInfo_members v).
Proof.
  intros (H0 & H1 & H2 & H3). unfold OverloadControlInfo_members.
  destruct H3 as [->|(k & -> & Hk)]; cbn [V2Grouped.opt_list map].
  - rewrite app_nil_r. all_good.
  - all_good.
Qed.
Lemma OverloadControlInfo_nonempty v : OverloadControlInfo_ok v -> OverloadControlInfo_value v <> [].
Proof.
  intros (H0 & H1 & H2 & H3). rewrite <- OverloadControlInfo_members_value.
  unfold OverloadControlInfo_members.
  all: eapply value_pos; [exact (fun _ : unit => [])|reflexivity].
Qed.
Lemma OverloadControlInfo_rt dec m x r : OverloadControlInfo_wf x -> dec (encoder (OverloadControlInfo_members (ie_v x))) = Ok (OverloadControlInfo_members (ie_v x)) ->
  OverloadControlInfo_unmarshal dec m (OverloadControlInfo_marshal x ++ r) = Ok x.
Proof.
  intros H D. rewrite OverloadControlInfo_members_value in D. unfold OverloadControlInfo_unmarshal, OverloadControlInfo_marshal. pose proof H as (Ht & _ & _ & _ & Hv).
  rewrite (grouped_rt dec m _ _ _ x r _ H (OverloadControlInfo_nonempty _ Hv) D). bk. unfold regroup. cbn [ie_t ie_length ie_ins ie_v]. rewrite OverloadControlInfo_from_members by exact Hv.
  cbv zeta. cbn [ie_v]. destruct Hv as (H0 & H1 & H2 & H3). destruct H3 as [E|(k & E & _)]; rewrite E; cbn [V2Grouped.opt_list length Nat.ltb Nat.leb]; destruct x; cbn in *; subst; reflexivity.
Qed.
Lemma RemoteUeContext_good v : RemoteUeContext_ok v -> Forall (good 0) (RemoteUeContext_members v).
Proof.
  intros (H0 & H1). unfold RemoteUeContext_members.
  all_good.
Qed.
Lemma RemoteUeContext_nonempty v : RemoteUeContext_ok v -> RemoteUeContext_value v <> [].
Proof.
  intros (H0 & H1). rewrite <- RemoteUeContext_members_value.
  unfold RemoteUeContext_members.
  all: eapply value_pos; [exact (fun _ : unit => [])|reflexivity].
Qed.
Lemma RemoteUeContext_rt dec m x r : RemoteUeContext_wf x -> dec (encoder (RemoteUeContext_members (ie_v x))) = Ok (RemoteUeContext_members (ie_v x)) ->
  RemoteUeContext_unmarshal dec m (RemoteUeContext_marshal x ++ r) = Ok x.
Proof.
  intros H D. rewrite RemoteUeContext_members_value in D. unfold RemoteUeContext_unmarshal, RemoteUeContext_marshal. pose proof H as (Ht & _ & _ & _ & Hv).
  rewrite (grouped_rt dec m _ _ _ x r _ H (RemoteUeContext_nonempty _ Hv) D). bk. unfold regroup. cbn [ie_t ie_length ie_ins ie_v]. rewrite RemoteUeContext_from_members by exact Hv.
  destruct x; cbn in *; subst; reflexivity.
Qed.
Lemma PC5QosParameters_good v : PC5QosParameters_ok v -> Forall (good 0) (PC5QosParameters_members v).
Proof.
  intros (H0 & H1 & H2). unfold PC5QosParameters_members.
  all_good.
Qed.
Lemma PC5QosParameters_nonempty v : PC5QosParameters_ok v -> PC5QosParameters_value v <> [].
Proof.
  intros (H0 & H1 & H2). rewrite <- PC5QosParameters_members_value.
  unfold PC5QosParameters_members. destruct (p5_flows v); [congruence|].
  all: eapply value_pos; [exact (fun _ : unit => [])|reflexivity].
Qed.
Lemma PC5QosParameters_rt dec m x r : PC5QosParameters_wf x -> dec (encoder (PC5QosParameters_members (ie_v x))) = Ok (PC5QosParameters_members (ie_v x)) ->
  PC5QosParameters_unmarshal dec m (PC5QosParameters_marshal x ++ r) = Ok x.
Proof.
  intros H D. rewrite PC5QosParameters_members_value in D. unfold PC5QosParameters_unmarshal, PC5QosParameters_marshal. pose proof H as (Ht & _ & _ & _ & Hv).
  rewrite (grouped_rt dec m _ _ _ x r _ H (PC5QosParameters_nonempty _ Hv) D). bk. unfold regroup. cbn [ie_t ie_length ie_ins ie_v]. rewrite PC5QosParameters_from_members by exact Hv.
  cbv zeta. cbn [ie_v]. destruct Hv as (H0 & H1 & H2). destruct (p5_flows (ie_v x)) eqn:E; [congruence|]. destruct x; cbn in *; subst; reflexivity.
Qed.
Lemma PgwChangeInfo_good v : PgwChangeInfo_ok v -> Forall (good 0) (PgwChangeInfo_members v).
Proof.
  intros (H0 & H1 & H2 & H3 & H4). unfold PgwChangeInfo_members.
  all_good.
Qed.
Lemma PgwChangeInfo_nonempty v : PgwChangeInfo_ok v -> PgwChangeInfo_value v <> [].
Proof.
  intros (H0 & H1 & H2 & H3 & H4). assumption.
Qed.
Lemma PgwChangeInfo_rt dec m x r : PgwChangeInfo_wf x -> dec (encoder (PgwChangeInfo_members (ie_v x))) = Ok (PgwChangeInfo_members (ie_v x)) ->
  PgwChangeInfo_unmarshal dec m (PgwChangeInfo_marshal x ++ r) = Ok x.
Proof.
  intros H D. rewrite PgwChangeInfo_members_value in D. unfold PgwChangeInfo_unmarshal, PgwChangeInfo_marshal. pose proof H as (Ht & _ & _ & _ & Hv).
  rewrite (grouped_rt dec m _ _ _ x r _ H (PgwChangeInfo_nonempty _ Hv) D). bk. unfold regroup. cbn [ie_t ie_length ie_ins ie_v]. rewrite PgwChangeInfo_from_members by exact Hv.
  destruct x; cbn in *; subst; reflexivity.
Qed.
Lemma ScefPdnConnections_good v : ScefPdnConnections_ok v -> Forall (good 0) (ScefPdnConnections_members v).
Proof.
  intros (H0 & H1 & H2). unfold ScefPdnConnections_members.
  all_good.
Qed.
Lemma ScefPdnConnections_nonempty v : ScefPdnConnections_ok v -> ScefPdnConnections_value v <> [].
Proof.
  intros (H0 & H1 & H2). rewrite <- ScefPdnConnections_members_value.
  unfold ScefPdnConnections_members.
  all: eapply value_pos; [exact (fun _ : unit => [])|reflexivity].
Qed.
Lemma ScefPdnConnections_rt dec m x r : ScefPdnConnections_wf x -> dec (encoder (ScefPdnConnections_members (ie_v x))) = Ok (ScefPdnConnections_members (ie_v x)) ->
  ScefPdnConnections_unmarshal dec m (ScefPdnConnections_marshal x ++ r) = Ok x.
Proof.
  intros H D. rewrite ScefPdnConnections_members_value in D. unfold ScefPdnConnections_unmarshal, ScefPdnConnections_marshal. pose proof H as (Ht & _ & _ & _ & Hv).
  rewrite (grouped_rt dec m _ _ _ x r _ H (ScefPdnConnections_nonempty _ Hv) D). bk. unfold regroup. cbn [ie_t ie_length ie_ins ie_v]. rewrite ScefPdnConnections_from_members by exact Hv.
  destruct x; cbn in *; subst; reflexivity.
Qed.
Lemma BearerContext_good v : BearerContext_ok v -> Forall (good 0) (BearerContext_members v).
Proof.
  intros (H0 & H1 & H2 & H3 & H4 & H5 & H6 & H7 & H8 & H9 & H10 & H11 & H12 & H13). unfold BearerContext_members.
  all_good.
Qed.
Lemma BearerContext_nonempty v : BearerContext_ok v -> BearerContext_value v <> [].
Proof.
  intros (H0 & H1 & H2 & H3 & H4 & H5 & H6 & H7 & H8 & H9 & H10 & H11 & H12 & H13). rewrite <- BearerContext_members_value.
  unfold BearerContext_members. destruct (bc_cause v).
  all: eapply value_pos; [exact (fun _ : unit => [])|reflexivity].
Qed.
Lemma BearerContext_rt dec m x r : BearerContext_wf x -> dec (encoder (BearerContext_members (ie_v x))) = Ok (BearerContext_members (ie_v x)) ->
  BearerContext_unmarshal dec m (BearerContext_marshal x ++ r) = Ok x.
Proof.
  intros H D. rewrite BearerContext_members_value in D. unfold BearerContext_unmarshal, BearerContext_marshal. pose proof H as (Ht & _ & _ & _ & Hv).
  rewrite (grouped_rt dec m _ _ _ x r _ H (BearerContext_nonempty _ Hv) D). bk. unfold regroup. cbn [ie_t ie_length ie_ins ie_v]. rewrite BearerContext_from_members by exact Hv.
  destruct x; cbn in *; subst; reflexivity.
Qed.
Lemma V2xInformation_good v : V2xInformation_ok v -> Forall (good 1) (V2xInformation_members v).
Proof.
  intros (H0 & H1 & H2 & H3). unfold V2xInformation_members.
  all_good.
Qed.
Lemma V2xInformation_nonempty v : V2xInformation_ok v -> V2xInformation_value v <> [].
Proof.
  intros (H0 & H1 & H2 & H3). assumption.
Qed.
Lemma V2xInformation_rt dec m x r : V2xInformation_wf x -> dec (encoder (V2xInformation_members (ie_v x))) = Ok (V2xInformation_members (ie_v x)) ->
  V2xInformation_unmarshal dec m (V2xInformation_marshal x ++ r) = Ok x.
Proof.
  intros H D. rewrite V2xInformation_members_value in D. unfold V2xInformation_unmarshal, V2xInformation_marshal. pose proof H as (Ht & _ & _ & _ & Hv).
  rewrite (grouped_rt dec m _ _ _ x r _ H (V2xInformation_nonempty _ Hv) D). bk. unfold regroup. cbn [ie_t ie_length ie_ins ie_v]. rewrite V2xInformation_from_members by exact Hv.
  destruct x; cbn in *; subst; reflexivity.
Qed.
Lemma PdnConnections_good v : PdnConnections_ok v -> Forall (good 1) (PdnConnections_members v).
Proof.
  intros (H0 & H1 & H2 & H3 & H4 & H5 & H6 & H7 & H8 & H9 & H10 & H11 & H12 & H13 & H14 & H15 & H16 & H17 & H18 & H19 & H20 & H21 & H22 & H23 & H24). unfold PdnConnections_members.
  all_good.
Qed.
Lemma PdnConnections_nonempty v : PdnConnections_ok v -> PdnConnections_value v <> [].
Proof.
  intros (H0 & H1 & H2 & H3 & H4 & H5 & H6 & H7 & H8 & H9 & H10 & H11 & H12 & H13 & H14 & H15 & H16 & H17 & H18 & H19 & H20 & H21 & H22 & H23 & H24). rewrite <- PdnConnections_members_value.
  unfold PdnConnections_members.
  all: eapply value_pos; [exact (fun _ : unit => [])|reflexivity].
Qed.
Lemma PdnConnections_rt dec m x r : PdnConnections_wf x -> dec (encoder (PdnConnections_members (ie_v x))) = Ok (PdnConnections_members (ie_v x)) ->
  PdnConnections_unmarshal dec m (PdnConnections_marshal x ++ r) = Ok x.
Proof.
  intros H D. rewrite PdnConnections_members_value in D. unfold PdnConnections_unmarshal, PdnConnections_marshal. pose proof H as (Ht & _ & _ & _ & Hv).
  rewrite (grouped_rt dec m _ _ _ x r _ H (PdnConnections_nonempty _ Hv) D). bk. unfold regroup. cbn [ie_t ie_length ie_ins ie_v]. rewrite PdnConnections_from_members by exact Hv.
  destruct x; cbn in *; subst; reflexivity.
Qed.

Theorem decode_one_rt d : forall m e r, good d e -> decode_one (decode_ies d m) m (ie_marshal e ++ r) = Ok e.
Proof.
  induction d as [|d IH]; intros m e r G.
  - destruct G as (W & R & N). apply plain_rt; [assumption..|lia].
  - pose proof G as (W & R & N).
    assert (L : forall l, Forall (good d) l -> decode_ies (S d) m (encoder l) = Ok l) by (intros; apply decode_list; [apply IH|assumption]).
    assert (UP : forall k e, (k <= d)%nat -> good k e -> good d e) by (intros ? ? ? (? & ? & ?); repeat split; [assumption..|lia]).
    destruct (nest e) as [|k] eqn:K; [apply plain_rt; assumption|].
    destruct e; cbn [nest] in K; try discriminate K; cbn [ie_wf] in W; unfold ie_marshal.
    + rewrite disp_93 by reflexivity. rewrite BearerContext_rt; [reflexivity|exact W|]. apply L. eapply Forall_impl; [|apply BearerContext_good; apply W]. intros e. apply UP. lia.
    + rewrite disp_109 by reflexivity. rewrite PdnConnections_rt; [reflexivity|exact W|]. apply L. eapply Forall_impl; [|apply PdnConnections_good; apply W]. intros e. apply UP. lia.
    + rewrite disp_180 by reflexivity. rewrite OverloadControlInfo_rt; [reflexivity|exact W|]. apply L. eapply Forall_impl; [|apply OverloadControlInfo_good; apply W]. intros e. apply UP. lia.
    + rewrite disp_181 by reflexivity. rewrite LoadControl_rt; [reflexivity|exact W|]. apply L. eapply Forall_impl; [|apply LoadControl_good; apply W]. intros e. apply UP. lia.
    + rewrite disp_191 by reflexivity. rewrite RemoteUeContext_rt; [reflexivity|exact W|]. apply L. eapply Forall_impl; [|apply RemoteUeContext_good; apply W]. intros e. apply UP. lia.
    + rewrite disp_195 by reflexivity. rewrite ScefPdnConnections_rt; [reflexivity|exact W|]. apply L. eapply Forall_impl; [|apply ScefPdnConnections_good; apply W]. intros e. apply UP. lia.
    + rewrite disp_208 by reflexivity. rewrite V2xInformation_rt; [reflexivity|exact W|]. apply L. eapply Forall_impl; [|apply V2xInformation_good; apply W]. intros e. apply UP. lia.
    + rewrite disp_209 by reflexivity. rewrite PC5QosParameters_rt; [reflexivity|exact W|]. apply L. eapply Forall_impl; [|apply PC5QosParameters_good; apply W]. intros e. apply UP. lia.
    + rewrite disp_214 by reflexivity. rewrite PgwChangeInfo_rt; [reflexivity|exact W|]. apply L. eapply Forall_impl; [|apply PgwChangeInfo_good; apply W]. intros e. apply UP. lia.
Qed.
Theorem decode_ies_rt d m l : Forall (good d) l -> decode_ies (S d) m (encoder l) = Ok l.
Proof. apply decode_list. intros. apply decode_one_rt. assumption. Qed.
