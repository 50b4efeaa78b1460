(* V2Forward.v - what a reader of V2ReadSpec.v can give: the values are in the ranges that the encoders
   need (V2DecSpec.v), except where V2ForwardSpec.v says that the sender has to check. *)
From Verif Require Import BaseFacts Digits Labels V2ForwardSpec V2DecSpec V2DecFacts V2CommonFacts Octets.
From Coq Require Import Sorted.
Local Open Scope N_scope.

(* ------------------------------------------------------------------------- *)
(* Readers *)

Definition gives {A} (p : reader A) (P : A -> Prop) : Prop :=
  forall q v r, bytes q -> p q = Some (v, r) -> P v /\ bytes r.
Lemma gives_imp {A} (p : reader A) (P Q : A -> Prop) : gives p P -> (forall v, P v -> Q v) -> gives p Q.
Proof. intros H I q v r B E. destruct (H _ _ _ B E). auto. Qed.
Lemma gives_yield {A} (a : A) (P : A -> Prop) : P a -> gives (yield a) P.
Proof. intros H q v r B E. injection E as <- <-. auto. Qed.
Lemma gives_bind {A B} (p : reader A) (k : A -> reader B) P Q :
  gives p P -> (forall a, P a -> gives (k a) Q) -> gives (andthen p k) Q.
Proof.
  intros H K q v r Y E. unfold andthen in E. destruct (p q) as [[a t]|] eqn:Ep; [|discriminate].
  destruct (H _ _ _ Y Ep). eapply K; eassumption.
Qed.
Lemma gives_refuse {A} (P : A -> Prop) : gives refuse P. Proof. discriminate. Qed.
Lemma gives_if {A} (c : bool) (p p' : reader A) P :
  (c = true -> gives p P) -> (c = false -> gives p' P) -> gives (if c then p else p') P.
Proof. destruct c; auto. Qed.
Lemma gives_take1 : gives take1 (fun x => x < 256).
Proof.
  intros [|x q] v r B E; [discriminate|]. injection E as <- <-. apply Forall_cons_iff in B. exact B.
Qed.
Lemma bytes_firstn n l : bytes l -> bytes (firstn n l).
Proof. intros H. apply Forall_forall. intros x I. rewrite <- (firstn_skipn n l) in H. apply Forall_app in H. destruct H as [H _].
  rewrite Forall_forall in H. auto. Qed.
Lemma bytes_skipn n l : bytes l -> bytes (skipn n l).
Proof. intros H. rewrite <- (firstn_skipn n l) in H. apply Forall_app in H. tauto. Qed.
Lemma gives_take n : gives (take n) (fun l => length l = n /\ bytes l).
Proof.
  intros q v r B E. unfold take in E. destruct (Nat.leb_spec n (length q)); [|discriminate]. injection E as <- <-.
  split; [split; [apply firstn_length_le; assumption|apply bytes_firstn; assumption]|apply bytes_skipn; assumption].
Qed.
Lemma base256_bound l : bytes l -> base256 l < 256 ^ nlen l.
Proof.
  unfold base256. intros H. rewrite <- (rev_involutive l) in *. rewrite fold_left_rev_right || idtac.
  revert H. generalize (rev l). clear l. induction l as [|x l IH]; intros H; [cbn; lia|].
  cbn [rev] in *. rewrite fold_left_app. cbn [fold_left]. apply Forall_app in H. destruct H as [H Hx]. apply Forall_cons_iff in Hx.
  destruct Hx as [Hx _]. specialize (IH H). unfold byte in Hx. unfold nlen in *. rewrite app_length, Nat2N.inj_add. cbn [length].
  replace (N.of_nat (length (rev l)) + N.of_nat 1) with (N.succ (N.of_nat (length (rev l)))) by lia. rewrite N.pow_succ_r'. lia.
Qed.
Lemma gives_number n : gives (number n) (fun x => x < 256 ^ N.of_nat n).
Proof.
  eapply gives_bind; [apply gives_take|]. intros l [<- H]. apply gives_yield. apply base256_bound. exact H.
Qed.
Lemma gives_number2 : gives (number 2) (fun x => x < 65536). Proof. exact (gives_number 2). Qed.
Lemma gives_number3 : gives (number 3) (fun x => x < 16777216). Proof. exact (gives_number 3). Qed.
Lemma gives_number4 : gives (number 4) (fun x => x < 4294967296). Proof. exact (gives_number 4). Qed.
Lemma gives_number5 : gives (number 5) (fun x => x < 2 ^ 40). Proof. exact (gives_number 5). Qed.
Lemma gives_number6 : gives (number 6) (fun x => x < 2 ^ 48). Proof. exact (gives_number 6). Qed.
Lemma gives_number8 : gives (number 8) (fun x => x < 2 ^ 64). Proof. exact (gives_number 8). Qed.
Lemma gives_counted : gives counted (fun l => nlen l < 256 /\ bytes l).
Proof.
  eapply gives_bind; [apply gives_take1|]. intros n Hn. cbn beta in Hn. eapply gives_imp; [apply gives_take|]. intros v [H B].
  split; [unfold nlen; lia|exact B].
Qed.
Lemma gives_pass n : gives (pass n) (fun _ => True).
Proof. intros q v r B E. injection E as <- <-. split; [exact I|apply bytes_skipn; exact B]. Qed.
Lemma gives_room n : gives (room n) (fun _ => True).
Proof. intros q v r B E. unfold room in E. destruct (n <=? length q)%nat; [|discriminate]. injection E as <- <-. auto. Qed.
Lemma gives_accept c : gives (accept c) (fun _ => c = true).
Proof. intros q v r B E. unfold accept in E. destruct c; [|discriminate]. injection E as <- <-. auto. Qed.
Lemma gives_if_set {A} c (p : reader A) P : gives p P -> gives (if_set c p) (fun o => match o with Some a => c = true /\ P a | None => c = false end).
Proof.
  intros H. destruct c; cbn [if_set].
  - eapply gives_bind; [exact H|]. intros a Ha. apply gives_yield. auto.
  - apply gives_yield. reflexivity.
Qed.
Lemma gives_times {A} n (p : reader A) P : gives p P -> gives (times n p) (fun l => length l = n /\ Forall P l).
Proof.
  intros H. induction n as [|n IH]; cbn [times]; [apply gives_yield; auto|].
  eapply gives_bind; [exact H|]. intros a Ha. eapply gives_bind; [exact IH|]. intros l [Hl Hf]. apply gives_yield. cbn [length]. auto.
Qed.
Lemma gives_rest : gives the_rest bytes.
Proof. intros q v r B E. injection E as <- <-. split; [exact B|constructor]. Qed.
Lemma gives_octet_as {A} (f : N -> A) (P : A -> Prop) : (forall x, x < 256 -> P (f x)) -> gives (octet_as f) P.
Proof. intros H. eapply gives_bind; [apply gives_take1|]. intros x Hx. apply gives_yield. auto. Qed.
Lemma gives_yes_no : gives yes_no (fun _ => True).
Proof.
  eapply gives_bind; [apply gives_take1|]. intros x Hx. eapply gives_bind; [apply gives_accept|]. intros _ _.
  apply gives_yield. exact I.
Qed.

(* ------------------------------------------------------------------------- *)
(* Parts *)

Lemma decimals_small l : Forall (fun d => d < 10) (decimals l).
Proof. apply Forall_forall. intros d H. apply filter_In in H. destruct H as [_ H]. apply N.ltb_lt in H. exact H. Qed.
Lemma number_of_digits o : Forall (fun c => 48 <= c <= 57) (number_of o).
Proof.
  unfold number_of. apply Forall_map. eapply Forall_impl; [|apply decimals_small]. cbn beta. intros d H. lia.
Qed.
Lemma filter_length_le {A} (f : A -> bool) l : (length (filter f l) <= length l)%nat.
Proof. induction l as [|x l IH]; cbn [filter length]; [lia|]. destruct (f x); cbn [length]; lia. Qed.
Lemma number_of_length o : (length (number_of o) <= 2 * length o)%nat.
Proof.
  unfold number_of. rewrite map_length. unfold decimals. etransitivity; [apply filter_length_le|].
  unfold halves. induction o as [|x o IH]; [cbn; lia|]. cbn [map concat]. rewrite app_length. cbn [length]. lia.
Qed.
Lemma decimal_bound l : decimal l < 10 ^ nlen l.
Proof.
  unfold decimal. assert (A : forall k a, Forall (fun d => d < 10) k -> fold_left (fun a d => 10 * a + d) k a < (a + 1) * 10 ^ nlen k).
  { induction k as [|d k IH]; intros a H; [change (10 ^ nlen (@nil N)) with 1; cbn [fold_left]; lia|]. apply Forall_cons_iff in H. destruct H as [Hd H]. cbn [fold_left].
    eapply N.lt_le_trans; [apply IH; exact H|]. unfold nlen. cbn [length]. rewrite Nat2N.inj_succ, N.pow_succ_r'. nia. }
  eapply N.lt_le_trans; [apply A; apply decimals_small|]. rewrite N.add_0_l, N.mul_1_l. apply N.pow_le_mono_r; [lia|].
  unfold nlen, decimals. pose proof (filter_length_le (fun d => d <? 10) l). lia.
Qed.
Lemma plmn_of_ok a b c : plmn_ok (plmn_of a b c).
Proof.
  unfold plmn_ok, plmn_of. cbn [p_mcc p_mnc p_three]. split.
  - exact (decimal_bound [a mod 16; a / 16; b mod 16]).
  - destruct (b / 16 =? 15); cbn [negb].
    + exact (decimal_bound [c mod 16; c / 16]).
    + exact (decimal_bound [c mod 16; c / 16; b / 16]).
Qed.
Lemma gives_plmn : gives plmn_ plmn_ok.
Proof.
  unfold plmn_. do 3 (eapply gives_bind; [apply gives_take1|]; intros ? ?). apply gives_yield. apply plmn_of_ok.
Qed.

Create HintDb gives.
Global Hint Resolve gives_take1 gives_take gives_number2 gives_number3 gives_number4 gives_number5 gives_number6 gives_number8
  gives_counted gives_pass gives_room gives_accept gives_rest gives_yes_no gives_plmn : gives.
Global Hint Extern 1 (gives (if_set _ _) _) => (eapply gives_if_set; eauto with gives) : gives.
Global Hint Extern 1 (gives (times _ _) _) => (eapply gives_times; eauto with gives) : gives.

Ltac Zify.zify_post_hook ::= Z.to_euclidean_division_equations.
Ltac arith := unfold byte, u16, u32, u64, four_bits, three_bits, two_bits, two_bit, percent, six_octets, opt_lt, V2OkF.opt_ok, V2OkD.opt_ok in *;
  change (2 ^ 24) with 16777216 in *; change (2 ^ 32) with 4294967296 in *; change (2 ^ 64) with 18446744073709551616 in *;
  change (2 ^ 18) with 262144 in *; change (2 ^ 23) with 8388608 in *; change (2 ^ 40) with 1099511627776 in *;
  change (2 ^ 48) with 281474976710656 in *; change (2 ^ 17) with 131072 in *.
Ltac proj := cbn [ad_autn ad_kasme ad_rand ad_xres af_ics af_vf am_classmark2 am_classmark3 am_codecs ambr_dl ambr_ul
  amm_dl amm_ul aq_autn aq_ck aq_ik aq_rand aq_xres ar_dl ar_exc ar_ul ar_validity arc_cap arc_name arp_pci arp_pl
  arp_pvi at_kc at_rand at_sres ax_ecna ax_ena ax_gana ax_gena ax_hnna ax_ina ax_nbna ax_una bf_asi bf_ppc bf_vb bf_vind
  bq_gbr_dl bq_gbr_ul bq_maxbr_dl bq_maxbr_ul bq_pci bq_pl bq_pvi bq_qci c_access c_ciph c_ck c_drx c_gupii c_higher
  c_ik c_int c_iov c_ksi c_mei c_ms c_quints c_sambr c_sec c_uambr c_ue c_vdn ca_bce ca_cs ca_offend ca_pce ca_value
  ce_ci ce_lac ce_plmn ce_rac cgi_ci cgi_lac cgi_plmn ci_awopdn ci_ihcsi ci_scnipdn ci_sgnipdn ct_counter ct_timestamp
  ctr_sncr ctr_tzcr d_access d_ck d_drx d_ik d_ksi d_mei d_ms d_quads d_quints d_rates d_sambr d_sec d_uambr d_ue d_vdn
  e_access e_addsec e_ciph e_core e_dl e_drx e_ensct e_ext e_int e_kasme e_ksi e_mei e_ms e_ncc e_nh e_nrsec e_old
  e_quads e_quints e_radio e_radioid e_rates e_sambr e_sec e_uambr e_ue e_ul e_vdn ecgi_eci ecgi_plmn eg_etac eg_id
  eg_length eg_plmn eg_tac et_unit et_value ex_nrna ex_nrsrna ex_nruna ex_nrusrna ex_ussrna fc_field fc_type fq_gbr_dl
  fq_gbr_ul fq_maxbr_dl fq_maxbr_ul fq_qci fs_csid fs_node ft_if ft_teid ft_v4 ft_v6 g_access g_ciph g_cksn g_drx
  g_higher g_kc g_mei g_ms g_quints g_sambr g_sec g_uambr g_ue g_vdn gc_id gc_plmn gn_etac gn_id gn_length gn_plmn
  gu_mmec gu_mmegi gu_mtmsi gu_plmn h2_length h2_msgtype h2_piggyback h2_prio h2_sqn h2_teid hc_max_cid hc_profiles
  i4_ip i4_prefix i_aopi i_aosi i_arrl i_bdwi i_ccrsi i_cfsi i_clii i_cpopci i_cprai i_cpsr i_crsi i_csfbi i_csrmfi
  i_daf i_dfi i_dtci i_dtf i_eevrsi i_emci i_enbcrsi i_epcosi i_ethpdn i_g5cnri i_g5cnrs i_g5siwki i_g5snn26 i_hi
  i_idfupf i_israi i_israu i_isrsi i_ltempi i_ltemsai i_ltemui i_mbmdt i_msv i_mtedta i_mtedtn i_n5gnmi i_nsenbi i_nsi
  i_nspusi i_oi i_pbic i_pcri i_pgwchi i_pgwrnsi i_pmtsmi i_pnsi i_ppoff i_ppon i_ppsi i_ps i_psci i_pt i_reprefi
  i_retloc i_roaai i_rppcsi i_s11tf i_s4af i_s5rho i_s6af i_sgwci i_si i_sissme i_sqci i_srni i_srtpi i_tspcmi i_uasi
  i_uimsi i_unaccsi i_upipsi i_wpmsi ie_ins ie_length ie_t ie_v lai_lac lai_plmn md_amount md_area md_interval md_job
  md_lte md_meas md_plmns md_pos md_rrm md_rsrp md_rsrq md_trigger me_id me_plmn mf_lmri mf_msri mi_ext mi_id mi_nscf
  mi_nsui mi_nsur mi_ref mi_reports ml_dl ml_ul mm_a1 mm_a2 mm_hc mm_teid mn_enb mn_etac mt_enb mt_tac mx_ext mx_id
  mx_ref mx_rmplrt nf_ciot nf_eth nf_mabr nf_mtedt nf_ntsr nf_prn nf_psset nf_s1un ni_name ni_realm oe_kasme oe_ksi
  oe_ncc oe_next_hop p5_gfbr p5_mfbr p5_pqi p5_range p_mcc p_mnc p_three pa_action pa_cgi pa_ecgi pa_ext pa_home
  pa_inapra pa_macro pa_prai pa_rai pa_sai pa_tai pc_dl pc_ul pe_id pe_value pf_ebi pf_id pg_ebi pg_policy pn_dl
  pn_nsapi pn_recv pn_send pn_ul pr_area pr_more ps_cgi ps_plmn q_access q_ciph q_ck q_drx q_ext q_gupii q_higher q_ik
  q_int q_iov q_ksi q_mei q_ms q_quints q_sambr q_sec q_uambr q_ue q_vdn rai_lac rai_plmn rai_rac rc_dlg rc_dlp rc_nsapi
  rc_ulg rc_ulp rm_apn rm_dl rm_exc rm_ul rm_validity rn_ext rn_id rn_rai rr_dl rr_ebi rr_end rr_irpgw rr_irsgw rr_rat
  rr_start rr_transfer rr_ul ru_imei ru_imsi ru_msisdn s1_ebi s1_ip s1_teid s3_ebis s3_gre s3_ip sa_pedestrian
  sa_vehicle sai_lac sai_plmn sai_sac sd_days sd_seconds sg_ip sg_port si_source si_target sn_msisdn sn_nanpi sp_data
  sp_ext sr_ext sr_id sr_plmn t_access t_ciph t_cksn t_drx t_kc t_mei t_ms t_sambr t_sec t_trips t_uambr t_ue t_vdn
  tai_plmn tai_tac th_factor th_unit th_value ti_depth ti_events ti_id ti_ifs ti_ip ti_ne ti_plmn tm_mcm tm_scm tr_id
  tr_plmn tw_bssid tw_circuit tw_civic tw_name tw_plmn tw_relay tw_ssid tx_flag tx_id tz_dst tz_zone uc_cmi uc_csgid
  uc_lcsg uc_mode uc_plmn wo_eutran wo_utran xe_id xe_plmn xe_smenb xn_enb xn_etac xt_depth xt_enb xt_events xt_id
  xt_ifs xt_ip xt_ne xt_plmn xt_tac].
Ltac tidy := repeat match goal with H : _ /\ _ |- _ => destruct H | H : (fun _ => _) _ |- _ => cbn beta in H
  | o : option _ |- _ => destruct o end.
Ltac conj := repeat (try assumption; match goal with |- _ /\ _ => split end).
Ltac close := cbn beta in *; tidy; proj; conj; try assumption; arith; try lia; auto.
(* one step of a reader *)
Ltac step := match goal with
  | |- gives (andthen _ _) _ => eapply gives_bind; [solve [eauto with gives]|intros ? ?]
  | |- gives (if _ then _ else _) _ => apply gives_if; intros ?
  | |- gives (yield _) _ => apply gives_yield
  | |- gives refuse _ => apply gives_refuse
  | |- gives (octet_as _) _ => apply gives_octet_as; intros ? ?
  end.
Ltac steps := repeat step;
  try (match goal with |- gives _ _ => eapply gives_imp; [solve [eauto with gives]|intros ? ?] end).

Lemma gives_Cgi : gives Cgi_ Cgi_ok. Proof. unfold Cgi_. steps. unfold Cgi_ok. close. Qed.
Lemma gives_Sai : gives Sai_ Sai_ok. Proof. unfold Sai_. steps. unfold Sai_ok. close. Qed.
Lemma gives_Rai : gives Rai_ Rai_ok. Proof. unfold Rai_. steps. unfold Rai_ok. close. Qed.
Lemma gives_Tai : gives Tai_ Tai_ok. Proof. unfold Tai_. steps. unfold Tai_ok. close. Qed.
Lemma gives_Ecgi : gives Ecgi_ Ecgi_ok. Proof. unfold Ecgi_. steps. unfold Ecgi_ok. close. Qed.
Lemma gives_Lai : gives Lai_ Lai_ok. Proof. unfold Lai_. steps. unfold Lai_ok. close. Qed.
Lemma gives_Macro : gives Macro_ MacroEnbId_ok. Proof. unfold Macro_. steps. unfold MacroEnbId_ok. close. Qed.
Lemma bit7_false x : x < 256 -> bit_at x 7 = false -> x < 128.
Proof.
  intros H B. unfold bit_at in B. apply N.eqb_neq in B. change (2 ^ 7) with 128 in B. lia.
Qed.
Lemma gives_ExtMacro : gives ExtMacro_ ExtMacroEnbId_ok.
Proof.
  unfold ExtMacro_. steps. unfold ExtMacroEnbId_ok. destruct (bit_at _ 7) eqn:E; close.
  apply bit7_false in E; [lia|assumption].
Qed.
Lemma gives_Triplet : gives Triplet_ AuthTriplet_ok. Proof. unfold Triplet_. steps. unfold AuthTriplet_ok. close. Qed.
Lemma gives_Quintuplet : gives Quintuplet_ AuthQuintuplet_ok. Proof. unfold Quintuplet_. steps. unfold AuthQuintuplet_ok. close. Qed.
Lemma gives_Quadruplet : gives Quadruplet_ AuthQuadruplet_ok. Proof. unfold Quadruplet_. steps. unfold AuthQuadruplet_ok. close. Qed.
Lemma gives_AmbrMm : gives AmbrMm_ AmbrMM_ok. Proof. unfold AmbrMm_. steps. unfold AmbrMM_ok. close. Qed.
Lemma gives_OldEps : gives OldEps_ OldEpsSecurityContext_ok.
Proof. unfold OldEps_. steps; unfold OldEpsSecurityContext_ok; close. Qed.
Lemma gives_Cell : gives Cell_ CellIdentifier_ok. Proof. unfold Cell_. steps. unfold CellIdentifier_ok. close. Qed.
Global Hint Resolve gives_Cgi gives_Sai gives_Rai gives_Tai gives_Ecgi gives_Lai gives_Macro gives_ExtMacro gives_Triplet
  gives_Quintuplet gives_Quadruplet gives_AmbrMm gives_OldEps gives_Cell : gives.

(* ------------------------------------------------------------------------- *)
(* Frames *)

Lemma nlen_marshal {A} T (value : A -> list N) x : nlen (marshal_ie T value x) = 4 + nlen (value (ie_v x)).
Proof. unfold nlen, marshal_ie. rewrite tliv_length. lia. Qed.
Lemma wf_again {A} (c : Tliv A -> ie) T value (ok : A -> Prop) S i :
  (forall x, nlen (ie_marshal (c x)) = 4 + nlen (value (ie_v x))) -> (forall x, ie_instance (c x) = ie_ins x) ->
  ie_t i = T -> ok (ie_v i) -> fit_for S (c i) -> wf_ie T value ok (true_length c i).
Proof.
  intros M I Ht Ho (F1 & F2 & _). rewrite M in F2. rewrite I in F1. unfold wf_ie, true_length. cbn [ie_t ie_ins ie_length ie_v].
  rewrite M. repeat split; try assumption; lia.
Qed.
Lemma element_fwd {A} (c : Tliv A -> ie) T value (ok Q : A -> Prop) inst (f : N -> N -> reader A) s i :
  (forall x, nlen (ie_marshal (c x)) = 4 + nlen (value (ie_v x))) -> (forall x, ie_instance (c x) = ie_ins x) ->
  (forall len k, len < 65536 -> k < 256 -> gives (f len k) Q) ->
  (forall x, plain_survives (c x) -> Q (ie_v x) -> ok (ie_v x)) ->
  bytes s -> element T inst f s = Some i -> fit_for plain_survives (c i) -> wf_ie T value ok (true_length c i).
Proof.
  intros M I G O B H F. assert (P : ie_t i = T /\ Q (ie_v i)).
  { unfold element in H. destruct s as [|t [|a [|b [|k q]]]]; try discriminate.
    unfold bytes in B. rewrite !Forall_cons_iff in B. destruct B as (Bt & Ba & Bb & Bk & B). unfold byte in *.
    destruct (f _ _ _) as [[v r]|] eqn:E; [|discriminate]. injection H as <-. cbn [ie_t ie_v]. split; [reflexivity|].
    destruct (G (256 * a + b) k ltac:(lia) Bk q v r B E) as [G' _]. exact G'. }
  destruct P as [Ht Hq]. eapply wf_again; try eassumption. apply O; [apply F|exact Hq].
Qed.
Lemma gives_checked {A} len (p : reader A) Q : (1 <= len -> gives p Q) -> gives (fun q => if fits len q then p q else None) Q.
Proof.
  intros H q v r B E. destruct (fits len q) eqn:F; [|discriminate]. unfold fits in F. rewrite !andb_true_iff in F.
  destruct F as [[F _] _]. apply N.leb_le in F. eapply H; eassumption.
Qed.
Lemma gives_closed {A} len (p : list N -> option A) (Q : A -> Prop) :
  (forall o v, bytes o -> o <> [] -> p o = Some v -> Q v) ->
  gives (fun q => if fits len q then match p (firstn (N.to_nat len) q) with Some v => Some (v, []) | None => None end else None) Q.
Proof.
  intros H q v r B E. destruct (fits len q) eqn:F; [|discriminate]. unfold fits in F. rewrite !andb_true_iff in F.
  destruct F as [[F1 F2] F3]. apply N.leb_le in F1, F2, F3. destruct (p _) as [w|] eqn:Ep; [|discriminate]. injection E as <- <-.
  split; [|constructor]. eapply H; [apply bytes_firstn, B| |exact Ep]. intros N0. apply (f_equal (@length N)) in N0.
  rewrite firstn_length_le in N0; unfold nlen in *; cbn [length] in N0; lia.
Qed.
Lemma closed_fwd {A} (c : Tliv A -> ie) T value (ok Q : A -> Prop) (p : list N -> option A) s i :
  (forall x, nlen (ie_marshal (c x)) = 4 + nlen (value (ie_v x))) -> (forall x, ie_instance (c x) = ie_ins x) ->
  (forall o v, bytes o -> o <> [] -> p o = Some v -> Q v) ->
  (forall x, plain_survives (c x) -> Q (ie_v x) -> ok (ie_v x)) ->
  bytes s -> closed T p s = Some i -> fit_for plain_survives (c i) -> wf_ie T value ok (true_length c i).
Proof.
  intros M I G O B H F. eapply (element_fwd c T value ok Q low_half
    (fun len _ q => if fits len q then match p (firstn (N.to_nat len) q) with Some v => Some (v, []) | None => None end else None));
    try eassumption. intros len k _ _. apply gives_closed. exact G.
Qed.

(* ------------------------------------------------------------------------- *)
(* Strings *)

Lemma char2 c d : 194 <= c <= 223 -> cont d = true ->
  scalar ((c - 192) * 64 + (d - 128)) /\ utf8_char ((c - 192) * 64 + (d - 128)) = [c; d].
Proof.
  intros H C. unfold cont in C. apply andb_true_iff in C. destruct C as [C1 C2]. apply N.leb_le in C1. apply N.leb_le in C2 || apply N.ltb_lt in C2.
  split; [unfold scalar; lia|]. unfold utf8_char.
  destruct (N.ltb_spec ((c - 192) * 64 + (d - 128)) 128); [lia|]. destruct (N.ltb_spec ((c - 192) * 64 + (d - 128)) 2048); [|lia].
  f_equal; [lia|f_equal; lia].
Qed.
Lemma char3 c d e : 224 <= c <= 239 -> second_ok c d = true -> cont e = true ->
  let x := (c - 224) * 4096 + (d - 128) * 64 + (e - 128) in scalar x /\ utf8_char x = [c; d; e].
Proof.
  intros H S C x. unfold cont in C. apply andb_true_iff in C. destruct C as [C1 C2]. apply N.leb_le in C1. apply N.leb_le in C2 || apply N.ltb_lt in C2.
  assert (D : 128 <= d <= 191 /\ (c = 224 -> 160 <= d) /\ (c = 237 -> d < 160)).
  { revert S. unfold second_ok, cont. repeat match goal with |- context [if ?b then _ else _] => destruct b eqn:? end;
    rewrite ?andb_true_iff, ?N.leb_le, ?N.ltb_lt, ?N.eqb_eq, ?N.eqb_neq in *; lia. }
  assert (E : scalar x) by (unfold scalar, x; lia). split; [exact E|]. unfold utf8_char.
  destruct (N.ltb_spec x 128); [unfold x in *; lia|]. destruct (N.ltb_spec x 2048); [unfold x in *; lia|].
  destruct (N.ltb_spec x 65536); [|unfold x in *; lia]. unfold x. f_equal; [lia|f_equal; [lia|f_equal; lia]].
Qed.
Lemma char4 c d e f : 240 <= c <= 244 -> second_ok c d = true -> cont e = true -> cont f = true ->
  let x := (c - 240) * 262144 + (d - 128) * 4096 + (e - 128) * 64 + (f - 128) in scalar x /\ utf8_char x = [c; d; e; f].
Proof.
  intros H S C C' x. unfold cont in C, C'. apply andb_true_iff in C, C'. destruct C as [C1 C2]. destruct C' as [C3 C4].
  rewrite ?N.leb_le, ?N.ltb_lt in *.
  assert (D : 128 <= d <= 191 /\ (c = 240 -> 144 <= d) /\ (c = 244 -> d < 144)).
  { revert S. unfold second_ok, cont. repeat match goal with |- context [if ?b then _ else _] => destruct b eqn:? end;
    rewrite ?andb_true_iff, ?N.leb_le, ?N.ltb_lt, ?N.eqb_eq, ?N.eqb_neq in *; lia. }
  assert (E : scalar x) by (unfold scalar, x; lia). split; [exact E|]. unfold utf8_char.
  destruct (N.ltb_spec x 128); [unfold x in *; lia|]. destruct (N.ltb_spec x 2048); [unfold x in *; lia|].
  destruct (N.ltb_spec x 65536); [unfold x in *; lia|]. unfold x. f_equal; [lia|f_equal; [lia|f_equal; [lia|f_equal; lia]]].
Qed.
Lemma utf8_strict_inv : forall n o s, (length o <= n)%nat -> utf8_strict o = Some s -> Forall scalar s /\ utf8 s = o.
Proof.
  assert (K : forall (x : N) (p : list N) o n s, (forall o s, (length o <= n)%nat -> utf8_strict o = Some s -> Forall scalar s /\ utf8 s = o) ->
    (length o <= n)%nat -> ocons x (utf8_strict o) = Some s -> scalar x -> utf8_char x = p -> Forall scalar s /\ utf8 s = p ++ o).
  { intros x p o n s IH L E Sx P. destruct (utf8_strict o) as [t|] eqn:Et; [|discriminate]. injection E as <-.
    destruct (IH _ _ L Et) as [A B]. split; [constructor; assumption|]. unfold utf8 in *. cbn [map concat]. rewrite P, B. reflexivity. }
  induction n as [|n IH]; intros o s L E.
  - destruct o; [|cbn in L; lia]. injection E as <-. split; [constructor|reflexivity].
  - destruct o as [|c r]; [injection E as <-; split; [constructor|reflexivity]|]. cbn [length] in L. cbn [utf8_strict] in E.
    destruct (N.ltb_spec c 128) as [H|H].
    { eapply (K c [c] r n); try eassumption; [lia|unfold scalar; lia|]. unfold utf8_char. apply N.ltb_lt in H. rewrite H. reflexivity. }
    destruct ((194 <=? c) && (c <=? 223)) eqn:E2.
    { rewrite andb_true_iff, !N.leb_le in E2. destruct r as [|d r]; [discriminate|]. cbn [length] in L. destruct (cont d) eqn:C; [|discriminate].
      destruct (char2 c d E2 C) as [A B]. eapply (K _ [c; d] r n); try eassumption. lia. }
    destruct ((224 <=? c) && (c <=? 239)) eqn:E3.
    { rewrite andb_true_iff, !N.leb_le in E3. destruct r as [|d [|e r]]; try discriminate. cbn [length] in L.
      destruct (second_ok c d) eqn:C; [|discriminate]. destruct (cont e) eqn:C'; [|discriminate].
      cbn [andb] in E. destruct (char3 c d e E3 C C') as [A B]. eapply (K _ [c; d; e] r n); try eassumption. lia. }
    destruct ((240 <=? c) && (c <=? 244)) eqn:E4; [|discriminate].
    rewrite andb_true_iff, !N.leb_le in E4. destruct r as [|d [|e [|f r]]]; try discriminate. cbn [length] in L.
    destruct (second_ok c d) eqn:C; [|discriminate]. destruct (cont e) eqn:C'; [|discriminate]. destruct (cont f) eqn:C''; [|discriminate].
    cbn [andb] in E. destruct (char4 c d e f E4 C C' C'') as [A B]. eapply (K _ [c; d; e; f] r n); try eassumption. lia.
Qed.
Lemma gives_utf8 : gives (utf8_ counted) short_string.
Proof.
  unfold utf8_. eapply gives_bind; [apply gives_counted|]. intros o [L B]. destruct (utf8_strict o) as [s|] eqn:E; [|apply gives_refuse].
  apply gives_yield. destruct (utf8_strict_inv _ _ _ (le_n _) E) as [A U]. unfold short_string. rewrite U. split; assumption.
Qed.

Lemma split_dot_app a b : split_dot (a ++ 46 :: b) = split_dot a ++ split_dot b.
Proof.
  induction a as [|c a IH]; [reflexivity|]. cbn [app split_dot]. rewrite IH. destruct (c =? 46); [reflexivity|].
  destruct (split_dot a) as [|w ws] eqn:E; [|reflexivity]. exfalso. revert E. clear. destruct a as [|x a]; cbn [split_dot]; [discriminate|].
  destruct (x =? 46); [discriminate|]. destruct (split_dot a); discriminate.
Qed.
Lemma split_dot_short w : Forall (fun p => (length p <= length w)%nat) (split_dot w).
Proof.
  induction w as [|c w IH]; [constructor; [cbn; lia|constructor]|]. cbn [split_dot length]. destruct (c =? 46).
  - constructor; [cbn; lia|]. eapply Forall_impl; [|exact IH]. cbn beta. intros; lia.
  - destruct (split_dot w) as [|p ps]; [constructor; [cbn [length]; lia|constructor]|]. apply Forall_cons_iff in IH. destruct IH as [H IH].
    constructor; [cbn [length]; lia|]. eapply Forall_impl; [|exact IH]. cbn beta. intros; lia.
Qed.
Lemma split_dotted ws : Forall (fun w => (length w < 256)%nat) ws -> Forall (fun w => nlen w < 256) (split_dot (dotted ws)).
Proof.
  assert (K : forall w, (length w < 256)%nat -> Forall (fun w => nlen w < 256) (split_dot w)).
  { intros w H. eapply Forall_impl; [|apply split_dot_short]. cbn beta. unfold nlen. intros; lia. }
  induction ws as [|w ws IH]; intros H; [apply K; cbn; lia|]. apply Forall_cons_iff in H. destruct H as [Hw H]. destruct ws as [|x ws].
  - apply K. exact Hw.
  - change (dotted (w :: x :: ws)) with (w ++ 46 :: dotted (x :: ws)). rewrite split_dot_app. apply Forall_app. split; [apply K, Hw|apply IH, H].
Qed.
Lemma labels_in_short : forall f o ws, bytes o -> labels_in f o = Some ws -> Forall (fun w => (length w < 256)%nat) ws.
Proof.
  induction f as [|f IH]; intros [|n r] ws B E; cbn [labels_in] in E; try discriminate; try (injection E as <-; constructor).
  apply Forall_cons_iff in B. destruct B as [Bn B]. unfold byte in Bn. destruct (Nat.leb_spec (N.to_nat n) (length r)); [|discriminate].
  destruct (labels_in f _) as [vs|] eqn:El; [|discriminate]. injection E as <-. constructor.
  - rewrite firstn_length_le by assumption. lia.
  - eapply IH; [|exact El]. apply bytes_skipn, B.
Qed.
Lemma name_in_ok o s : bytes o -> name_in o = Some s -> ascii s -> name_ok s.
Proof.
  intros B E A. unfold name_in in E. destruct (labels_in _ _) as [ws|] eqn:El; [|discriminate]. cbn [option_map] in E. injection E as <-.
  split; [exact A|]. apply split_dotted. eapply labels_in_short; eassumption.
Qed.

(* ------------------------------------------------------------------------- *)
(* Further parts *)

Lemma at_most_100_le x : at_most_100 x <= 100.
Proof. unfold at_most_100. destruct (N.leb_spec x 100); lia. Qed.
Lemma gives_or_absent : gives or_absent (fun o => match o with Some l => l <> [] /\ nlen l < 256 | None => True end).
Proof.
  unfold or_absent. eapply gives_bind; [apply gives_take1|]. intros n Hn. cbn beta in Hn. destruct (N.eqb_spec n 0); steps; [exact I|].
  destruct H as [L _]. split; [intros ->; cbn in L; lia|unfold nlen; lia].
Qed.
Lemma gives_or_none : gives or_none (fun o => match o with Some l => l <> [] /\ nlen l < 256 | None => True end).
Proof.
  unfold or_none. eapply gives_bind; [apply gives_take1|]. intros n Hn. cbn beta in Hn. destruct (N.eqb_spec n 0); steps; [exact I|].
  destruct H as [L _]. split; [intros ->; cbn in L; lia|unfold nlen; lia].
Qed.
Lemma gives_counted_address : gives counted_address ipaddr_ok.
Proof.
  unfold counted_address. eapply gives_bind; [apply gives_counted|]. intros o _. destruct (Nat.eqb_spec (length o) 4); [steps; assumption|].
  destruct (Nat.eqb_spec (length o) 16); steps; assumption.
Qed.
Lemma gives_typed_address : gives typed_address ipaddr_ok.
Proof. unfold typed_address. steps; cbn beta in *; tidy; assumption. Qed.
Lemma gives_Rai7 : gives Rai7_ Rai_ok. Proof. unfold Rai7_. steps. assumption. Qed.
Lemma gives_as {A B} (f : A -> B) p (P : A -> Prop) (Q : B -> Prop) : gives p P -> (forall a, P a -> Q (f a)) -> gives (as_ f p) Q.
Proof. intros H K. unfold as_. eapply gives_bind; [exact H|]. intros a Ha. apply gives_yield. auto. Qed.
Lemma gives_if_there c : gives (if_there c) (fun _ => True).
Proof.
  intros [|x q] v r B E; cbn in E; [injection E as <- <-; auto|]. apply Forall_cons_iff in B as B'. destruct B' as [_ B'].
  destruct c; injection E as <- <-; auto.
Qed.
Global Hint Resolve gives_utf8 gives_or_absent gives_or_none gives_counted_address gives_typed_address gives_Rai7 gives_if_there : gives.
