(* V2CrashDec.v - the decoder of a list of GTPv2-C information elements against V2CrashSpec.v: it panics exactly when it
   reaches an element that overruns. *)
From Verif Require Import Base BaseFacts V2CrashSpec.
From Verif Require Export V2CrashMm.
Local Open Scope N_scope.

Definition crash_codes : list N := map fst crash_table.
Lemma not_in_table t P : ~ In t crash_codes -> In (t, P) crash_table -> False.
Proof. intros H K. apply H. unfold crash_codes. change t with (fst (t, P)). apply in_map, K. Qed.
Lemma tame_other b : ~ In (oct b 0) crash_codes -> declared b <= 65531 -> tame b.
Proof.
  intros H Hd. unfold tame. cbv zeta. set (t := oct b 0) in *. clearbody t. split; [exact Hd|]. unfold crash_codes, crash_table in H. cbn [map fst In] in H.
  assert (K : forall k, In k [71; 136; 215; 184; 77; 86; 87; 90; 91; 103; 104; 105; 106; 107; 108; 129; 142; 159; 162; 175; 177; 186; 192; 205; 206; 212; 254; 255] -> t <> k).
  { intros k Hk E. apply H. subst k. cbn [In] in Hk. intuition congruence. }
  clear H. repeat split; intros; try (exfalso; eapply K; [|eassumption]; cbn; tauto).
  - cbn [In] in H. exfalso. destruct H as [H|[H|[H|[]]]]; eapply K; try (symmetry; exact H); cbn; tauto.
  - intros H. cbn [In] in H. repeat destruct H as [H|H]; try contradiction; eapply K; try (symmetry; exact H); cbn; tauto.
Qed.
Lemma crash_grouped dec m b Q : b <> [] -> declared b <= 65531 -> (fits b -> crash Q (dec (value_of b))) -> crash (fits b /\ Q) (GroupedIe_unmarshal dec m b).
Proof.
  intros Hb Hd H. unfold GroupedIe_unmarshal, MIN_IE_SIZE. destruct (Nat.leb_spec 4 (length b)).
  - apply crash_at; [intros _|lia]. apply crash_hdr4; [lia|]. apply crash_checked; [exact Hd|intros F|tauto]. apply (and_crash _ _ _ F). assert (F' := F). unfold fits in F'.
    apply crash_end16; [lia|]. replace (N.to_nat (declared b + 4)) with (4 + N.to_nat (declared b))%nat by lia. rewrite slice_value by lia. cbn [bind].
    apply crash_bind_l; [apply H, F|intros; exact I].
  - apply crash_at; [intros _; apply crash_err; unfold fits; lia|]. destruct b; [contradiction|cbn; lia].
Qed.
Lemma crash_iff {A} (P : Prop) (r : res A) : crash P r -> (r = Panic <-> P).
Proof. intros [[H ->]|[H R]]; [tauto|]. split; [intros ->; contradiction R|contradiction]. Qed.
Lemma crash_decode_one dec m b Q : b <> [] -> bytes b -> declared b <= 65531 ->
  (In (oct b 0) grouped_codes -> fits b -> crash Q (dec (value_of b))) ->
  crash (overruns b \/ (In (oct b 0) grouped_codes /\ fits b /\ Q)) (decode_one dec m b).
Proof.
  intros Hb By Hd Hg.
  destruct (in_dec N.eq_dec (oct b 0) crash_codes) as [IC|NC].
  - assert (D : forall t, oct b 0 = t -> at_ b 0 = Ok (E:=GTPV2Error) t) by (intros t <-; rewrite at_eq; destruct (Nat.ltb_spec 0 (length b)); [reflexivity|destruct b; [contradiction|cbn in *; lia]]).
    assert (X : forall P r, In (oct b 0, P) crash_table -> ~ In (oct b 0) grouped_codes -> (forall P', In (oct b 0, P') crash_table -> P' = P) -> crash (P b) r -> r = decode_one dec m b ->
      crash (overruns b \/ (In (oct b 0) grouped_codes /\ fits b /\ Q)) (decode_one dec m b)).
    { intros P r I1 I2 I3 C <-. eapply crash_ext; [|exact C]. split; [intros H; left; exists P; auto|]. intros [(P' & I' & H')|[H' _]]; [|contradiction].
      rewrite <- (I3 P' I'). exact H'. }
    clear Hg. unfold crash_codes, crash_table in IC. cbn [map fst In] in IC.
    assert (U : forall t P, oct b 0 = t -> nth_error (filter (fun q => fst q =? t) crash_table) 0 = Some (t, P) -> length (filter (fun q => fst q =? t) crash_table) = 1%nat -> In (oct b 0, P) crash_table /\ forall P', In (oct b 0, P') crash_table -> P' = P).
    { intros t P <- E1 E2. destruct (filter (fun q => fst q =? oct b 0) crash_table) as [|q [|? ?]] eqn:EF; try discriminate E2. cbn in E1. injection E1 as ->. split.
      - eapply proj1. apply filter_In. rewrite EF. left. reflexivity.
      - intros P' I'. assert (K : In (oct b 0, P') [(oct b 0, P)]) by (rewrite <- EF; apply filter_In; split; [exact I'|cbn; apply N.eqb_refl]). destruct K as [K|[]]. congruence. }
    assert (V : forall t P r, oct b 0 = t -> nth_error (filter (fun q => fst q =? t) crash_table) 0 = Some (t, P) -> length (filter (fun q => fst q =? t) crash_table) = 1%nat -> existsb (N.eqb t) grouped_codes = false ->
      crash (P b) r -> decode_one dec m b = r -> crash (overruns b \/ (In (oct b 0) grouped_codes /\ fits b /\ Q)) (decode_one dec m b)).
    { intros t P r E E1 E2 E3 C E4. destruct (U t P E E1 E2) as [U1 U2]. apply (X P r); auto. rewrite E. intros K.
      assert (E5 : existsb (N.eqb t) grouped_codes = true) by (apply existsb_exists; exists t; split; [exact K|apply N.eqb_refl]). congruence. }
    clear X U.
    destruct IC as [IC|[IC|[IC|[IC|[IC|[IC|[IC|[IC|[IC|[IC|[IC|[IC|[IC|[IC|[IC|[IC|[IC|[IC|[IC|[IC|[IC|[IC|[IC|[IC|[IC|[IC|[IC|[IC|[]]]]]]]]]]]]]]]]]]]]]]]]]]]]]; try contradiction; symmetry in IC; specialize (D _ IC).
    + refine (V 71 (name_overruns 0) _ IC eq_refl eq_refl eq_refl _ (disp_71 _ _ _ D)). apply crash_lift, Apn_crash; assumption.
    + refine (V 136 (name_overruns 0) _ IC eq_refl eq_refl eq_refl _ (disp_136 _ _ _ D)). apply crash_lift, Fqdn_crash; assumption.
    + refine (V 215 (name_overruns 0) _ IC eq_refl eq_refl eq_refl _ (disp_215 _ _ _ D)). apply crash_lift, PgwFqdn_crash; assumption.
    + refine (V 184 (name_overruns 1) _ IC eq_refl eq_refl eq_refl _ (disp_184 _ _ _ D)). apply crash_lift, ApnRelativeCapacity_crash; assumption.
    + refine (V 77 (indication_overruns) _ IC eq_refl eq_refl eq_refl _ (disp_77 _ _ _ D)). apply crash_lift, Indication_crash; assumption.
    + refine (V 86 (uli_overruns) _ IC eq_refl eq_refl eq_refl _ (disp_86 _ _ _ D)). apply crash_lift, Uli_crash; assumption.
    + refine (V 87 (fteid_overruns) _ IC eq_refl eq_refl eq_refl _ (disp_87 _ _ _ D)). apply crash_lift, Fteid_crash; assumption.
    + refine (V 90 (s103_overruns) _ IC eq_refl eq_refl eq_refl _ (disp_90 _ _ _ D)). apply crash_lift, S103pdf_crash; assumption.
    + refine (V 91 (s1u_overruns) _ IC eq_refl eq_refl eq_refl _ (disp_91 _ _ _ D)). apply crash_lift, S1udf_crash; assumption.
    + refine (V 103 (gsm_triplets_overruns) _ IC eq_refl eq_refl eq_refl _ (disp_103 _ _ _ D)). apply crash_lift. unfold MmContext_unmarshal. rewrite D. cbn [bind N.eqb Pos.eqb]. apply crash_bind_l; [apply MmGsmT_crash; assumption|intros; exact I].
    + refine (V 104 (umts_cipher_overruns) _ IC eq_refl eq_refl eq_refl _ (disp_104 _ _ _ D)). apply crash_lift. unfold MmContext_unmarshal. rewrite D. cbn [bind N.eqb Pos.eqb]. apply crash_bind_l; [apply MmUmtsCq_crash; assumption|intros; exact I].
    + refine (V 105 (gsm_quintuplets_overruns) _ IC eq_refl eq_refl eq_refl _ (disp_105 _ _ _ D)). apply crash_lift. unfold MmContext_unmarshal. rewrite D. cbn [bind N.eqb Pos.eqb]. apply crash_bind_l; [apply MmGsmCq_crash; assumption|intros; exact I].
    + refine (V 106 (umts_quintuplets_overruns) _ IC eq_refl eq_refl eq_refl _ (disp_106 _ _ _ D)). apply crash_lift. unfold MmContext_unmarshal. rewrite D. cbn [bind N.eqb Pos.eqb]. apply crash_bind_l; [apply MmUmtsQ_crash; assumption|intros; exact I].
    + refine (V 107 (eps_overruns) _ IC eq_refl eq_refl eq_refl _ (disp_107 _ _ _ D)). apply crash_lift. unfold MmContext_unmarshal. rewrite D. cbn [bind N.eqb Pos.eqb]. apply crash_bind_l; [apply MmEps_crash; assumption|intros; exact I].
    + refine (V 108 (umts_quadruplets_overruns) _ IC eq_refl eq_refl eq_refl _ (disp_108 _ _ _ D)). apply crash_lift. unfold MmContext_unmarshal. rewrite D. cbn [bind N.eqb Pos.eqb]. apply crash_bind_l; [apply MmUmtsQq_crash; assumption|intros; exact I].
    + refine (V 129 (source_overruns) _ IC eq_refl eq_refl eq_refl _ (disp_129 _ _ _ D)). apply crash_lift, SourceIdentification_crash; assumption.
    + refine (V 142 (multicast_overruns) _ IC eq_refl eq_refl eq_refl _ (disp_142 _ _ _ D)). apply crash_lift, MbmsIpMulticastDistribution_crash; assumption.
    + refine (V 159 (srvcc_overruns) _ IC eq_refl eq_refl eq_refl _ (disp_159 _ _ _ D)). apply crash_lift, AdditionalMmContextForSrvcc_crash; assumption.
    + refine (V 162 (mdt_overruns) _ IC eq_refl eq_refl eq_refl _ (disp_162 _ _ _ D)). apply crash_lift, MdtConfiguration_crash; assumption.
    + refine (V 175 (node_number_overruns) _ IC eq_refl eq_refl eq_refl _ (disp_175 _ _ _ D)). apply crash_lift, NodeNumber_crash; assumption.
    + refine (V 177 (praa_overruns) _ IC eq_refl eq_refl eq_refl _ (disp_177 _ _ _ D)). apply crash_lift, PresenceReportingAreaAction_crash; assumption.
    + refine (V 186 (paging_overruns) _ IC eq_refl eq_refl eq_refl _ (disp_186 _ _ _ D)). apply crash_lift, PagingServiceInfo_crash; assumption.
    + refine (V 192 (remote_user_overruns) _ IC eq_refl eq_refl eq_refl _ (disp_192 _ _ _ D)). apply crash_lift, RemoteUserId_crash; assumption.
    + refine (V 205 (trace_overruns) _ IC eq_refl eq_refl eq_refl _ (disp_205 _ _ _ D)). apply crash_lift, ExtendedTraceInformation_crash; assumption.
    + refine (V 206 (monitoring_overruns) _ IC eq_refl eq_refl eq_refl _ (disp_206 _ _ _ D)). apply crash_lift, MonitoringEventExtensionInfo_crash; assumption.
    + refine (V 212 (pc5_overruns) _ IC eq_refl eq_refl eq_refl _ (disp_212 _ _ _ D)). apply crash_lift, PC5QosFlow_crash; assumption.
    + refine (V 254 (special_overruns) _ IC eq_refl eq_refl eq_refl _ (disp_254 _ _ _ D)). apply crash_lift, SpecialIEWithTypeExt_crash; assumption.
    + refine (V 255 (private_overruns) _ IC eq_refl eq_refl eq_refl _ (disp_255 _ _ _ D)). apply crash_lift, PrivateExtension_crash; assumption.
  - destruct (in_dec N.eq_dec (oct b 0) grouped_codes) as [IG|NG].
    + specialize (Hg IG). pose proof (crash_grouped dec m b Q Hb Hd Hg) as C. assert (OV : ~ overruns b) by (intros (P & I' & _); exact (not_in_table _ _ NC I')).
      assert (D : forall t, oct b 0 = t -> at_ b 0 = Ok (E:=GTPV2Error) t) by (intros t <-; rewrite at_eq; destruct (Nat.ltb_spec 0 (length b)); [reflexivity|destruct b; [contradiction|cbn in *; lia]]).
      apply (crash_ext (fits b /\ Q)); [tauto|]. clear OV NC Hg. cbn [In grouped_codes] in IG.
      destruct IG as [IG|[IG|[IG|[IG|[IG|[IG|[IG|[IG|[IG|[]]]]]]]]]]; symmetry in IG; specialize (D _ IG);
        [rewrite disp_93 by exact D|rewrite disp_109 by exact D|rewrite disp_180 by exact D|rewrite disp_181 by exact D|rewrite disp_191 by exact D|rewrite disp_195 by exact D|rewrite disp_208 by exact D|rewrite disp_209 by exact D|rewrite disp_214 by exact D];
        apply crash_lift; match goal with |- crash _ (?f _ _ _) => unfold f end; (apply crash_bind_l; [exact C|]); intros; cbv zeta; repeat match goal with |- returns (match ?x with _ => _ end) => destruct x end; exact I.
    + right. split; [intros [(P & I' & _)|[I' _]]; [exact (not_in_table _ _ NC I')|contradiction]|].
      apply returns_decode_one; [exact Hb|apply tame_other; assumption|]. intros K. contradiction.
Qed.
Theorem decoder_crash m b : bytes b -> (forall s, looked_at m b s -> declared s <= 65531) ->
  crash (exists s, looked_at m b s /\ overruns s) (decoder m b).
Proof.
  remember (length b) as k eqn:Hk. revert b Hk. induction k as [k IH] using lt_wf_ind. intros b -> Hby H. rewrite decoder_eq.
  assert (L : forall fuel c, (length c <= fuel)%nat -> (length c <= length b)%nat -> bytes c -> (forall s, looked_at m c s -> declared s <= 65531) ->
    crash (exists s, looked_at m c s /\ overruns s) (ie_loop (decode_one (decoder m) m) m fuel c)).
  { assert (NIL : ~ exists s, looked_at m [] s /\ overruns s).
    { intros (s & Hs & _). remember [] as e eqn:E. induction Hs as [b' N0|b' e' n s D Le Hs IHs|b' s G F Hs IHs]; [contradiction| |].
      - apply IHs. rewrite E. apply skipn_nil.
      - rewrite E in G. cbn in G. lia. }
    induction fuel as [|f IHf]; intros [|x c] F Hc By T; try (apply crash_ok; exact NIL); [cbn in F; lia|]. cbn [ie_loop].
    assert (Tx : declared (x :: c) <= 65531) by (apply T; constructor; discriminate).
    assert (C : crash (overruns (x :: c) \/ (In (oct (x :: c) 0) grouped_codes /\ fits (x :: c) /\ exists s, looked_at m (value_of (x :: c)) s /\ overruns s)) (decode_one (decoder m) m (x :: c))).
    { apply crash_decode_one; [discriminate|exact By|exact Tx|]. intros Hi Hf. eapply IH; [|reflexivity| |].
      - unfold value_of. rewrite firstn_length, skipn_length. cbn [length] in *. lia.
      - unfold value_of. apply bytes_firstn, bytes_skipn, By.
      - intros s Hs. apply T. apply look_inside; assumption. }
    destruct C as [[P E]|[NP R]].
    - rewrite E. apply crash_panic. destruct P as [P|(P1 & P2 & s & P3 & P4)]; [exists (x :: c); split; [constructor; discriminate|exact P]|exists s; split; [apply look_inside; assumption|exact P4]].
    - destruct (decode_one (decoder m) m (x :: c)) as [e|er| |] eqn:E; try contradiction; cbn [bind].
      + assert (D := decode_one_post (decoder m) m (x :: c) e E). destruct D as [_ D]. assert (Le : ie_lenfield e <= 65531) by (rewrite D; apply Tx).
        pose proof (returns_ie_len m e Le) as RL. destruct (ie_len m e) as [n|er| |] eqn:EL; try contradiction; cbn [bind].
        2:{ apply crash_err. intros (s & Hs & Ho). inversion Hs as [b' N0|b' e' n' s' D' L' Hs'|b' s' G' F' Hs']; subst; [apply NP; left; exact Ho| |apply NP; right; split; [assumption|]; split; [assumption|]; exists s; split; assumption].
            rewrite E in D'. apply Ok_inj in D'. subst e'. rewrite EL in L'. discriminate L'. }
        pose proof (ie_len_pos m e n (or_intror Le) EL) as Pn. cbn [length] in *.
        assert (S1 : (length (skipn n (x :: c)) <= length c)%nat) by (rewrite skipn_length; cbn [length]; lia).
        apply crash_bind_l; [|intros; exact I].
        apply (crash_ext (exists s, looked_at m (skipn n (x :: c)) s /\ overruns s)).
        * split; [intros (s & Hs & Ho); exists s; split; [eapply look_next; eassumption|exact Ho]|]. intros (s & Hs & Ho). inversion Hs as [b' N0|b' e' n' s' D' L' Hs'|b' s' G' F' Hs']; subst.
          -- exfalso. apply NP. left. exact Ho.
          -- rewrite E in D'. apply Ok_inj in D'. subst e'. rewrite EL in L'. apply Ok_inj in L'. subst n'. exists s. split; assumption.
          -- exfalso. apply NP. right. split; [assumption|]. split; [assumption|]. exists s. split; assumption.
        * apply IHf; [lia|lia|apply bytes_skipn, By|]. intros s Hs. apply T. eapply look_next; eassumption.
      + apply crash_err. intros (s & Hs & Ho). inversion Hs as [b' N0|b' e' n' s' D' L' Hs'|b' s' G' F' Hs']; subst.
        * apply NP. left. exact Ho.
        * rewrite E in D'. discriminate D'.
        * apply NP. right. split; [assumption|]. split; [assumption|]. exists s. split; assumption. }
  apply L; [lia|lia|exact Hby|exact H].
Qed.
