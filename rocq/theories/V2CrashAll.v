(* V2CrashAll.v - the decoder of a list of GTPv2-C information elements against V2LongSpec.v: for all octets it panics
   exactly when it comes to an element that does. *)
From Verif Require Import Base BaseFacts V2CrashSpec V2HangSpec V2LongSpec.
From Verif Require Export V2Long.
Local Open Scope N_scope.

Definition panics {A} (P : Prop) (r : res A) : Prop := (P /\ r = Panic) \/ (~ P /\ r <> Panic).
Lemma panics_crash {A} (P : Prop) (r : res A) : crash P r -> panics P r.
Proof. intros [[H ->]|[H R]]; [left; auto|right]. split; [exact H|]. intros ->. exact R. Qed.
Lemma panics_no {A} (P : Prop) (r : res A) : ~ P -> r <> Panic -> panics P r.
Proof. right. auto. Qed.
Lemma panics_ext {A} (P Q : Prop) (r : res A) : (P <-> Q) -> panics P r -> panics Q r.
Proof. unfold panics. tauto. Qed.
Lemma panics_bind {A B} P (r : res A) (k : A -> res B) : panics P r -> (forall x, returns (k x)) -> panics P (bind r k).
Proof. intros [[H ->]|[H R]] K; [left; auto|right]. split; [exact H|]. destruct r; cbn; try discriminate; [|contradiction R; reflexivity]. intros E. specialize (K a). rewrite E in K. exact K. Qed.
Lemma panics_iff {A} (P : Prop) (r : res A) : panics P r -> (r = Panic <-> P).
Proof. unfold panics. tauto. Qed.

Lemma panics_group dec m b Q : b <> [] -> declared b <= 65531 -> (fits b -> panics Q (dec (value_of b))) -> panics (fits b /\ Q) (GroupedIe_unmarshal dec m b).
Proof.
  intros Hn Hd H. unfold GroupedIe_unmarshal, MIN_IE_SIZE. rewrite (first_octet b (oct b 0) Hn eq_refl). cbn [bind].
  destruct (Nat.leb_spec 4 (length b)) as [L|L]; [|apply panics_no; [unfold fits; lia|discriminate]]. rewrite hdr4_eq by exact L. unfold checked, check_tliv_ie_buffer.
  destruct (N.eqb_spec (declared b) 0) as [Z|Z]; [cbn [bind]; apply panics_no; [unfold fits; lia|discriminate]|].
  rewrite add16_small by lia. cbn [bind]. destruct (Nat.leb_spec (N.to_nat (declared b + 4)) (length b)) as [F|F]; [|apply panics_no; [unfold fits; lia|discriminate]].
  assert (F' : fits b) by (unfold fits; lia). rewrite end16_ok by lia. cbn [bind]. replace (N.to_nat (declared b + 4)) with (4 + N.to_nat (declared b))%nat by lia. rewrite slice_value by lia. cbn [bind].
  apply (panics_ext Q); [tauto|]. apply panics_bind; [auto|]. intros. exact I.
Qed.
Lemma grouped_no_overrun b : In (oct b 0) grouped_codes -> ~ overruns b.
Proof.
  intros G (P & I' & _). assert (E : forallb (fun c => negb (existsb (N.eqb c) grouped_codes)) (map fst crash_table) = true) by reflexivity.
  rewrite forallb_forall in E. specialize (E (oct b 0)). assert (K : In (oct b 0) (map fst crash_table)) by (change (oct b 0) with (fst (oct b 0, P)); apply in_map, I').
  specialize (E K). apply negb_true_iff in E. assert (E5 : existsb (N.eqb (oct b 0)) grouped_codes = true) by (apply existsb_exists; exists (oct b 0); split; [exact G|apply N.eqb_refl]). congruence.
Qed.
Lemma panics_decode_one m b Q : b <> [] -> bytes b -> declared b <= 65531 ->
  (In (oct b 0) grouped_codes -> fits b -> panics Q (decoder m (value_of b))) ->
  panics (overruns b \/ (In (oct b 0) grouped_codes /\ fits b /\ Q)) (decode_one (decoder m) m b).
Proof.
  intros Hn Hb Hd H. destruct (in_dec N.eq_dec (oct b 0) grouped_codes) as [IG|NG].
  2:{ apply panics_crash. apply crash_decode_one; [exact Hn|exact Hb|exact Hd|]. intros; contradiction. }
  specialize (H IG). pose proof (grouped_no_overrun b IG) as NO. pose proof (panics_group (decoder m) m b Q Hn Hd H) as C. apply (panics_ext (fits b /\ Q)); [tauto|].
  assert (LB : forall A B (c : B -> ie) (r : res A) (k : A -> res B), panics (fits b /\ Q) r -> (forall x, returns (k x)) -> panics (fits b /\ Q) (lift c (bind r k))).
  { intros A B c r k S K. unfold lift. apply panics_bind; [apply panics_bind; assumption|]. intros. exact I. }
  pose proof (fun t => first_octet b t Hn) as D. cbn [In grouped_codes] in IG.
  destruct IG as [IG|[IG|[IG|[IG|[IG|[IG|[IG|[IG|[IG|[]]]]]]]]]]; symmetry in IG; specialize (D _ IG);
    [rewrite disp_93 by exact D|rewrite disp_109 by exact D|rewrite disp_180 by exact D|rewrite disp_181 by exact D|rewrite disp_191 by exact D|rewrite disp_195 by exact D|rewrite disp_208 by exact D|rewrite disp_209 by exact D|rewrite disp_214 by exact D];
    match goal with |- panics _ (lift _ (?f _ _ _)) => unfold f end; (apply LB; [exact C|]); intros; cbv zeta;
    repeat match goal with |- returns (match ?x with _ => _ end) => destruct x end; exact I.
Qed.

(* --- the size of an element, when it panics --- *)
Lemma len_u16_panic {A} m (x : Tliv A) : len_u16 m x = Panic -> m = Debug /\ 65531 < ie_length x.
Proof. unfold len_u16, add16, ov. destruct (N.ltb_spec (ie_length x + 4) 65536); [discriminate|]. destruct m; [intros _; split; [reflexivity|lia]|discriminate]. Qed.
Lemma ie_len_panic m e : ie_len m e = Panic -> m = Debug /\ 65531 < ie_lenfield e /\ sums16 e.
Proof.
  intros H. destruct e; cbn [ie_len ie_lenfield sums16] in *.
  all: first [ match type of H with ?f _ _ = _ => unfold f in H end; apply len_u16_panic in H; destruct H; split; [assumption|]; split; [assumption|exact I]
             | apply len_u16_panic in H; destruct H; split; [assumption|]; split; [assumption|exact I]
             | exfalso; match type of H with ?f _ _ = _ => unfold f in H end; unfold len_usize, len_const in H; discriminate H
             | exfalso; match type of H with ?f _ _ = _ => unfold f in H end; destruct i; discriminate H
             | exfalso; match type of H with ?f _ _ = _ => unfold f in H end; repeat match type of H with context [match ?x with _ => _ end] => destruct x end; discriminate H ].
Qed.
Lemma crash_not_ok {A} P (r : res A) x : crash P r -> r = Ok x -> ~ P.
Proof. intros [[_ ->]|[H _]] E; [discriminate E|exact H]. Qed.
Lemma need_ok {A} b n e (k : res A) x : need b n e k = Ok x -> (n <= length b)%nat.
Proof. unfold need. destruct (Nat.leb_spec n (length b)); [auto|discriminate]. Qed.
Lemma size_crash dec m s e : s <> [] -> bytes s -> decode_one dec m s = Ok e -> ie_len m e = Panic -> m = Debug /\ 65531 < declared s /\ oct s 0 = 205 /\ trace_readable s.
Proof.
  intros Hn Hb E L. apply ie_len_panic in L as (-> & Hd & S). destruct (decode_one_post dec Debug s e E) as [Hc Hl]. rewrite Hl in Hd.
  assert (H169 : nth 0 s 0 <> 169). { intros T. rewrite disp_169 in E by (apply first_octet; assumption). apply lift_ok in E as (x & _ & ->). exact S. }
  specialize (Hc H169). fold (oct s 0) in Hc. split; [reflexivity|]. split; [exact Hd|].
  assert (K : forall A n P (f : res A) x, crash ((n <= length s)%nat /\ (Debug = Debug \/ P)) f -> f = Ok x -> (f = Ok x -> (n <= length s)%nat) -> False).
  { intros A n P f x C F N0. apply (crash_not_ok _ _ x C F). auto. }
  destruct e; try contradiction S; clear S; cbn [has_code] in Hc.
  - exfalso. rewrite disp_2 in E by (apply first_octet; assumption). apply lift_ok in E as (x & E & _). unfold Cause_unmarshal, need in E. destruct (Nat.leb_spec 5 (length s)); [|discriminate E]. rewrite hdr4_eq in E by lia.
    repeat (match type of E with context [?d =? ?n] => destruct (N.eqb_spec d n); [lia|] end). discriminate E.
  - exfalso. rewrite disp_71 in E by (apply first_octet; assumption). apply lift_ok in E as (x & E & _). eapply K; [apply Apn_long; assumption|exact E|apply need_ok].
  - exfalso. rewrite disp_87 in E by (apply first_octet; assumption). apply lift_ok in E as (x & E & _). eapply K; [apply Fteid_long; assumption|exact E|apply need_ok].
  - exfalso. rewrite disp_116 in E by (apply first_octet; assumption). apply lift_ok in E as (x & E & _). eapply K; [apply CompleteRequestMessage_long; assumption|exact E|apply need_ok].
  - exfalso. rewrite disp_118 in E by (apply first_octet; assumption). apply lift_ok in E as (x & E & _). eapply K; [apply Fcontainer_long; assumption|exact E|apply need_ok].
  - exfalso. rewrite disp_125 in E by (apply first_octet; assumption). apply lift_ok in E as (x & E & _). eapply K; [apply SourceRncPdcpContextInfo_long; assumption|exact E|apply need_ok].
  - exfalso. rewrite disp_132 in E by (apply first_octet; assumption). apply lift_ok in E as (x & E & _). eapply K; [apply Fqcsid_long; assumption|exact E|apply need_ok].
  - exfalso. rewrite disp_136 in E by (apply first_octet; assumption). apply lift_ok in E as (x & E & _). eapply K; [apply Fqdn_long; assumption|exact E|apply need_ok].
  - exfalso. rewrite disp_151 in E by (apply first_octet; assumption). apply lift_ok in E as (x & E & _). eapply K; [apply Ldn_long; assumption|exact E|apply need_ok].
  - exfalso. rewrite disp_193 in E by (apply first_octet; assumption). apply lift_ok in E as (x & E & _). eapply K; [apply RemoteUeIpInformation_long; assumption|exact E|apply need_ok].
  - rewrite disp_205 in E by (apply first_octet; assumption). apply lift_ok in E as (x & E & _). split; [exact Hc|]. exact (reads_some _ _ x (Trace_reads _ s) E).
Qed.
Lemma trace_size dec s : s <> [] -> 65531 < declared s -> oct s 0 = 205 -> trace_readable s -> exists e, decode_one dec Debug s = Ok e /\ ie_len Debug e = Panic.
Proof.
  intros Hn Hd T R. destruct (Trace_reads Debug s) as [[_ [x E]]|[N0 _]]; [|contradiction]. exists (IE_ExtendedTraceInformation x).
  assert (E' : decode_one dec Debug s = Ok (IE_ExtendedTraceInformation x)) by (rewrite disp_205 by (apply first_octet; assumption); rewrite E; reflexivity). split; [exact E'|].
  destruct (decode_one_post dec Debug s _ E') as [_ Hl]. cbn [ie_lenfield] in Hl. cbn [ie_len]. try unfold ExtendedTraceInformation_len. unfold len_u16, add16, ov. rewrite Hl.
  destruct (N.ltb_spec (declared s + 4) 65536); [lia|reflexivity].
Qed.

Theorem decoder_panics m b : bytes b -> panics (elements_crash m b) (decoder m b).
Proof.
  remember (length b) as k eqn:Hk. revert b Hk. induction k as [k IH] using lt_wf_ind. intros b -> Hby. rewrite decoder_eq.
  assert (L : forall fuel c, (length c <= fuel)%nat -> (length c <= length b)%nat -> bytes c -> panics (elements_crash m c) (ie_loop (decode_one (decoder m) m) m fuel c)).
  { induction fuel as [|f IHf]; intros [|x c] F Hc By; try (apply panics_no; [intros (s & Hs & _); exact (comes_nil m s Hs)|discriminate]); [cbn in F; lia|].
    set (w := x :: c) in *. assert (Hw : w <> []) by discriminate.
    assert (C : panics ((declared w <= 65531 /\ overruns w) \/ (65531 < declared w /\ long_crashes m w) \/
        (In (oct w 0) grouped_codes /\ fits w /\ declared w <= 65531 /\ elements_crash m (value_of w))) (decode_one (decoder m) m w)).
    { destruct (N.leb_spec (declared w) 65531) as [S|S].
      - eapply panics_ext; [|apply (panics_decode_one m w (elements_crash m (value_of w))); [exact Hw|exact By|exact S|]].
        + split; [tauto|]. intros [K|[[K _]|K]]; [tauto|lia|tauto].
        + intros Hi Hf. eapply IH; [|reflexivity|].
          * unfold value_of. rewrite firstn_length, skipn_length. unfold w in *. cbn [length] in *. lia.
          * unfold value_of. apply bytes_firstn, bytes_skipn, By.
      - eapply panics_ext; [|apply panics_crash, decode_one_long; [exact Hw|exact By|exact S]]. split; [tauto|]. intros [[K _]|[K|(_ & _ & K & _)]]; [lia|tauto|lia]. }
    assert (IV : elements_crash m w -> ((declared w <= 65531 /\ overruns w) \/ (65531 < declared w /\ long_crashes m w)) \/ (m = Debug /\ 65531 < declared w /\ oct w 0 = 205 /\ trace_readable w) \/
      (In (oct w 0) grouped_codes /\ fits w /\ declared w <= 65531 /\ elements_crash m (value_of w)) \/
      exists e n, decode_one (decoder m) m w = Ok e /\ ie_len m e = Ok n /\ elements_crash m (skipn n w)).
    { intros (s & Hs & Hr). inversion Hs as [b' N0|b' e' n' s' D' L' Hs'|b' s' G' F' L' Hs']; subst.
      - unfold element_crashes in Hr. tauto.
      - do 3 right. exists e', n'. split; [exact D'|]. split; [exact L'|]. exists s. auto.
      - right. right. left. do 3 (split; [assumption|]). exists s. auto. }
    assert (HE : element_crashes m w -> elements_crash m w) by (intros K; exists w; split; [constructor; exact Hw|exact K]).
    cbn [ie_loop]. fold w.
    destruct C as [[P E]|[NP R]].
    - rewrite E. left. split; [|reflexivity]. destruct P as [P|[P|(P1 & P2 & P3 & s & P4 & P5)]].
      + apply HE. left. exact P.
      + apply HE. right. tauto.
      + exists s. split; [apply come_inside; assumption|exact P5].
    - assert (RS : m = Debug -> 65531 < declared w -> oct w 0 = 205 -> trace_readable w -> exists e, decode_one (decoder m) m w = Ok e /\ ie_len m e = Panic).
      { intros -> K1 K2 K3. apply trace_size; assumption. }
      destruct (decode_one (decoder m) m w) as [e|er| |] eqn:E; try (contradiction R; reflexivity).
      2,3: cbn [bind]; apply panics_no; [|discriminate]; intros K; destruct (IV K) as [K1|[(K1 & K2 & K3 & K4)|[K1|(e' & n' & D' & _)]]];
        [tauto|destruct (RS K1 K2 K3 K4) as (? & D' & _); discriminate D'|tauto|discriminate D'].
      cbn [bind]. destruct (ie_len m e) as [n|er| |] eqn:EL.
      2,4: cbn [bind]; apply panics_no; [|discriminate]; intros K; destruct (IV K) as [K1|[(K1 & K2 & K3 & K4)|[K1|(e' & n' & D' & L' & _)]]];
        [tauto|destruct (RS K1 K2 K3 K4) as (? & D' & L'); apply Ok_inj in D'; subst; rewrite EL in L'; discriminate L'|tauto|apply Ok_inj in D'; subst; rewrite EL in L'; discriminate L'].
      2:{ cbn [bind]. left. split; [|reflexivity]. destruct (size_crash _ m w e Hw By E EL) as (K1 & K2 & K3 & K4). apply HE. right. tauto. }
      cbn [bind]. destruct n as [|n].
      + assert (Z : ie_loop (decode_one (decoder m) m) m f (skipn 0 w) = Diverge) by (eapply stuck; [exact Hw|exact E|exact EL]). rewrite Z. cbn [bind].
        assert (Hm : m = Release) by (destruct m; [|reflexivity]; pose proof (ie_len_pos Debug e 0 (or_introl eq_refl) EL); lia).
        assert (Hd : declared w = 65532) by (rewrite Hm in E, EL; exact (proj1 (stays_repeats _ w e Hw By E EL))).
        apply panics_no; [|discriminate]. intros (s & Hs & Hr).
        assert (A0 : forall v s, comes_to m v s -> v = w -> ~ element_crashes m s); [|exact (A0 w s Hs eq_refl Hr)]. clear s Hs Hr.
        intros v s Hs. induction Hs as [b' N0|b' e' n' s D' L' Hs IHs|b' s G' F' L' Hs IHs]; intros ->.
        * intros [K|[K1 [K|(K2 & _)]]]; [tauto|tauto|congruence].
        * rewrite E in D'. apply Ok_inj in D'. subst e'. rewrite EL in L'. apply Ok_inj in L'. subst n'. apply IHs. reflexivity.
        * rewrite Hd in L'. exfalso. lia.
      + apply panics_bind; [|intros; exact I].
        apply (panics_ext (elements_crash m (skipn (S n) w))).
        * split; [intros (s & Hs & Hr); exists s; split; [eapply come_next; eassumption|exact Hr]|]. intros K. destruct (IV K) as [K1|[(K1 & K2 & K3 & K4)|[K1|(e' & n' & D' & L' & Kn)]]].
          -- tauto.
          -- destruct (RS K1 K2 K3 K4) as (e' & D' & L'). apply Ok_inj in D'. subst. rewrite EL in L'. discriminate L'.
          -- tauto.
          -- apply Ok_inj in D'. subst. rewrite EL in L'. apply Ok_inj in L'. subst. exact Kn.
        * unfold w in *. cbn [length] in *. apply IHf; [cbn [skipn]; rewrite skipn_length; lia|cbn [skipn]; rewrite skipn_length; lia|apply bytes_skipn, By]. }
  apply L; [lia|lia|exact Hby].
Qed.
