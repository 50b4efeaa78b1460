(* V2Crash.v - every decoder against V2CrashSpec.v: it panics exactly when the element overruns. *)
From Verif Require Import Base BaseFacts V2CrashSpec.
From Verif Require Export V2DecTame.
Local Open Scope N_scope.

Definition crash {A} (P : Prop) (r : res A) : Prop := (P /\ r = Panic) \/ (~ P /\ returns r).
Lemma bind_bind {A B C} (r : res A) (f : A -> res B) (g : B -> res C) : bind (bind r f) g = bind r (fun x => bind (f x) g).
Proof. destruct r; reflexivity. Qed.
Lemma crash_ok {A} P (x : A) : ~ P -> crash P (Ok x).
Proof. right. split; [assumption|exact I]. Qed.
Lemma crash_err {A} P e : ~ P -> @crash A P (Err e).
Proof. right. split; [assumption|exact I]. Qed.
Lemma crash_panic {A} (P : Prop) : P -> @crash A P Panic.
Proof. left. auto. Qed.
Lemma crash_ext {A} (P Q : Prop) (r : res A) : (P <-> Q) -> crash P r -> crash Q r.
Proof. unfold crash. tauto. Qed.
Lemma crash_bind_ok {A B} P (r : res A) (k : A -> res B) x : r = Ok x -> crash P (k x) -> crash P (bind r k).
Proof. intros ->. auto. Qed.
Lemma crash_need {A} P b n e (k : res A) : ((n <= length b)%nat -> crash P k) -> ((length b < n)%nat -> ~ P) -> crash P (need b n e k).
Proof. intros H K. unfold need. destruct (Nat.leb_spec n (length b)); [auto|apply crash_err; auto]. Qed.
Lemma crash_if {A} P (c : bool) (x y : res A) : (c = true -> crash P x) -> (c = false -> crash P y) -> crash P (if c then x else y).
Proof. destruct c; auto. Qed.
Lemma crash_at {A} P b c (k : N -> res A) : ((c < length b)%nat -> crash P (k (oct b c))) -> ((length b <= c)%nat -> P) -> crash P (bind (at_ b c) k).
Proof.
  intros H K. unfold at_. destruct (nth_error b c) as [x|] eqn:E.
  - assert (c < length b)%nat by (apply nth_error_Some; congruence). rewrite (nth_error_oct b c x E) in H. cbn [bind]. auto.
  - apply nth_error_None in E. apply crash_panic. auto.
Qed.
Lemma crash_slice {A} P b i j (k : list N -> res A) : (i <= j)%nat ->
  ((j <= length b)%nat -> crash P (k (firstn (j - i) (skipn i b)))) -> ((length b < j)%nat -> P) -> crash P (bind (slice b i j) k).
Proof.
  intros Hij H K. unfold slice. destruct (Nat.leb_spec i j); [|lia]. destruct (Nat.leb_spec j (length b)); cbn [andb bind]; [auto|apply crash_panic; auto].
Qed.
Lemma crash_be_at {A} P b i n (k : N -> res A) : ((i + n <= length b)%nat -> forall v, crash P (k v)) -> ((length b < i + n)%nat -> P) -> crash P (bind (be_at b i n) k).
Proof. intros H K. unfold be_at. rewrite bind_bind. apply crash_slice; [lia| |auto]. intros. cbn [bind]. auto. Qed.
Lemma crash_slice_from {A} P b i (k : list N -> res A) : ((i <= length b)%nat -> crash P (k (skipn i b))) -> ((length b < i)%nat -> P) -> crash P (bind (slice_from b i) k).
Proof. intros H K. unfold slice_from. destruct (Nat.leb_spec i (length b)); cbn [bind]; [auto|apply crash_panic; auto]. Qed.
Lemma crash_hdr4 {A} P b (k : N -> N -> res A) : (4 <= length b)%nat -> crash P (k (declared b) (oct b 3)) -> crash P (hdr4 b k).
Proof. intros H K. rewrite hdr4_eq by exact H. exact K. Qed.
Lemma crash_checked {A} P m b e (k : res A) : declared b <= 65531 -> (fits b -> crash P k) -> (~ fits b -> ~ P) -> crash P (checked m (declared b) b e k).
Proof.
  intros Hd H K. destruct (N.eq_dec (declared b) 0) as [Z|Z].
  - unfold checked, check_tliv_ie_buffer. rewrite Z. cbn. apply crash_err, K. unfold fits. lia.
  - destruct (Nat.leb_spec (4 + N.to_nat (declared b)) (length b)).
    + rewrite checked_ok by lia. apply H. unfold fits. lia.
    + unfold checked, check_tliv_ie_buffer, add16, ov. rewrite (proj2 (N.eqb_neq _ _) Z).
      replace (declared b + 4 <? 65536) with true by (symmetry; apply N.ltb_lt; lia). cbn [bind].
      destruct (Nat.leb_spec (N.to_nat (declared b + 4)) (length b)); [lia|]. apply crash_err, K. unfold fits. lia.
Qed.
Lemma crash_plmn_at {A} P b i (k : plmn -> res A) : ((i + 3 <= length b)%nat -> forall p, crash P (k p)) -> ((length b < i + 3)%nat -> P) -> crash P (bind (plmn_at b i) k).
Proof.
  intros H K. destruct (Nat.leb_spec (i + 3) (length b)) as [L|L].
  - unfold plmn_at. rewrite slice_ok by lia. cbn [bind].
    assert (Hl : length (firstn (i + 3 - i) (skipn i b)) = 3%nat) by (rewrite firstn_length, skipn_length; lia).
    destruct (firstn _ _) as [|x [|y [|z [|? ?]]]]; try discriminate Hl. cbn. apply H, L.
  - unfold plmn_at. rewrite bind_bind. apply crash_slice; [lia| |auto]. intros. lia.
Qed.
Lemma crash_end16 {A} P m l k (c : nat -> res A) : l + k < 65536 -> crash P (c (N.to_nat (l + k))) -> crash P (bind (end16 m l k) c).
Proof. intros H K. rewrite end16_ok by exact H. exact K. Qed.
Lemma crash_lift {A} P (c : A -> ie) r : crash P r -> crash P (lift c r).
Proof. intros [[H ->]|[H R]]; [left; auto|right]. split; [exact H|]. apply returns_lift, R. Qed.

Lemma crash_lv_at {A} P b c e (k : list N * nat -> res A) :
  ((c < length b)%nat -> (c + 1 + lof b c <= length b)%nat -> forall x, length x = lof b c -> crash P (k (x, (c + 1 + lof b c)%nat))) ->
  ((c < length b)%nat -> (length b < c + 1 + lof b c)%nat -> ~ P) -> ((length b <= c)%nat -> P) -> crash P (bind (lv_at b c e) k).
Proof.
  intros H K L. unfold lv_at. rewrite bind_bind. apply crash_at; [|exact L]. intros Hc. cbv zeta. fold (lof b c).
  destruct (Nat.leb_spec (c + 1 + lof b c) (length b)) as [F|F]; [|apply crash_err; auto].
  rewrite slice_ok by lia. cbn [bind]. apply H; [exact Hc|exact F|]. rewrite firstn_length, skipn_length. lia.
Qed.
Ltac cr1 := first
  [ match goal with |- crash _ (need _ _ _ _) => apply crash_need; intros end
  | match goal with |- crash _ (hdr4 _ _) => apply crash_hdr4; [lia|] end
  | match goal with |- crash _ (checked _ _ _ _ _) => apply crash_checked; [assumption|intros|intros] end
  | match goal with |- crash _ (bind (at_ _ _) _) => apply crash_at; intros end
  | match goal with |- crash _ (bind (slice _ _ _) _) => apply crash_slice; [try lia|intros|intros] end
  | match goal with |- crash _ (bind (be_at _ _ _) _) => apply crash_be_at; intros end
  | match goal with |- crash _ (bind (slice_from _ _) _) => apply crash_slice_from; intros end
  | match goal with |- crash _ (bind (plmn_at _ _) _) => apply crash_plmn_at; intros end
  | match goal with |- crash _ (bind (lv_at _ _ _) _) => apply crash_lv_at; intros end
  | match goal with |- crash _ (bind (end16 _ _ _) _) => apply crash_end16; [lia|] end
  | match goal with |- crash _ (if _ then _ else _) => apply crash_if; intros end
  | match goal with |- crash _ (let x := _ in _) => cbv zeta end
  | match goal with |- crash _ (Ok _) => apply crash_ok end
  | match goal with |- crash _ (Err _) => apply crash_err end
  | match goal with |- crash _ (lift _ _) => apply crash_lift end ].
Ltac cr := repeat cr1.
Ltac eqs := repeat match goal with
  | H : (?a =? ?b) = true |- _ => apply N.eqb_eq in H
  | H : (?a =? ?b) = false |- _ => apply N.eqb_neq in H
  end.

Lemma labels_loop_nofit f : forall v, (length v <= f)%nat ->
  crash (~ labels_fit v) (labels_loop (E:=GTPV2Error) f v).
Proof.
  induction f as [|f IH]; intros v Hv.
  - destruct v; [|cbn in Hv; lia]. apply crash_ok. intros H. apply H. exists []. reflexivity.
  - destruct v as [|n r]; [apply crash_ok; intros H; apply H; exists []; reflexivity|]. cbn [labels_loop]. cbn [length] in Hv.
    destruct (Nat.leb_spec (N.to_nat n) (length r)) as [L|L].
    + assert (EQ : ~ labels_fit (skipn (N.to_nat n) r) <-> ~ labels_fit (n :: r)).
      { split; intros H (ws & E); apply H.
        - destruct ws as [|w ws]; [discriminate E|]. cbn [map concat app] in E. injection E as -> ->. exists ws.
          unfold nlen. rewrite Nat2N.id, skipn_app, skipn_all, Nat.sub_diag. reflexivity.
        - exists (firstn (N.to_nat n) r :: ws). cbn [map concat]. rewrite <- E. unfold nlen. rewrite firstn_length_le by lia. rewrite N2Nat.id.
          cbn [app]. rewrite firstn_skipn. reflexivity. }
      apply (crash_ext _ _ _ EQ). pose proof (IH (skipn (N.to_nat n) r)) as C. rewrite skipn_length in C. specialize (C ltac:(lia)).
      destruct C as [[H ->]|[H R]]; [left; auto|right]. split; [exact H|]. apply returns_bind; [exact R|intros; exact I].
    + apply crash_panic. intros (ws & E). destruct ws as [|w ws]; [discriminate E|]. cbn [map concat app] in E. injection E as -> ->.
      rewrite app_length in L. unfold nlen in L. lia.
Qed.
Lemma labels_decode_crash v : crash (~ labels_fit v) (labels_decode (E:=GTPV2Error) v).
Proof.
  unfold labels_decode. destruct (labels_loop_nofit (length v) v ltac:(lia)) as [[H ->]|[H R]]; [left; auto|right].
  split; [exact H|]. apply returns_bind; [exact R|intros; exact I].
Qed.
Lemma crash_bind_l {A B} P (r : res A) (k : A -> res B) : crash P r -> (forall x, returns (k x)) -> crash P (bind r k).
Proof. intros [[H ->]|[H R]] K; [left; auto|right]. split; [exact H|]. apply returns_bind; auto. Qed.
Lemma and_crash {A} (P Q : Prop) (r : res A) : P -> crash Q r -> crash (P /\ Q) r.
Proof. unfold crash. tauto. Qed.
Ltac name_crash := intros m b Hd; match goal with |- crash _ (?f _ _) => unfold f end; unfold name_overruns; cbn [skipn];
  apply crash_need; [intros|unfold fits; lia]; apply crash_hdr4; [lia|]; apply crash_checked; [exact Hd|intros|tauto];
  match goal with F : fits b |- _ => rewrite slice_value by (destruct F; lia); cbn [bind]; apply (and_crash _ _ _ F) end;
  apply crash_bind_l; [apply labels_decode_crash|intros; exact I].
Lemma Apn_crash : forall m b, declared b <= 65531 -> crash (name_overruns 0 b) (Apn_unmarshal m b).
Proof. name_crash. Qed.
Lemma Fqdn_crash : forall m b, declared b <= 65531 -> crash (name_overruns 0 b) (Fqdn_unmarshal m b).
Proof. name_crash. Qed.
Lemma PgwFqdn_crash : forall m b, declared b <= 65531 -> crash (name_overruns 0 b) (PgwFqdn_unmarshal m b).
Proof. name_crash. Qed.
Lemma ApnRelativeCapacity_crash : forall m b, declared b <= 65531 -> crash (name_overruns 1 b) (ApnRelativeCapacity_unmarshal m b).
Proof.
  intros m b Hd. unfold ApnRelativeCapacity_unmarshal, name_overruns.
  apply crash_need; [intros|unfold fits; lia]. apply crash_hdr4; [lia|]. apply crash_checked; [exact Hd|intros F|tauto].
  assert (F' := F). unfold fits in F'. apply crash_at; [intros|lia]. cbv zeta. rewrite slice_ok by lia. cbn [bind]. apply (and_crash _ _ _ F).
  apply crash_bind_l; [|intros; exact I]. unfold value_of. rewrite skipn_firstn_comm, skipn2. cbn [Nat.add].
  replace (4 + N.to_nat (declared b) - 5)%nat with (N.to_nat (declared b) - 1)%nat by lia. apply labels_decode_crash.
Qed.
Lemma Indication_crash : forall m b, crash (indication_overruns b) (Indication_unmarshal m b).
Proof. intros m b. unfold Indication_unmarshal, indication_overruns. cr; lia. Qed.
Lemma shiftr_7_bit x : x < 256 -> (N.shiftr x 7 =? 1) = N.testbit x 7 /\ (N.shiftr x 7 =? 0) = negb (N.testbit x 7).
Proof. intros H. split; cases_lt 256%nat H; reflexivity. Qed.
Lemma oct_lt b c : bytes b -> oct b c < 256.
Proof. intros H. unfold oct. destruct (Nat.lt_ge_cases c (length b)) as [L|L]; [|rewrite nth_overflow by exact L; lia]. apply (proj1 (Forall_forall _ _) H). apply nth_In, L. Qed.
Lemma Fteid_crash : forall m b, bytes b -> declared b <= 65531 -> crash (fteid_overruns b) (Fteid_unmarshal m b).
Proof.
  intros m b Hb Hd. unfold Fteid_unmarshal, fteid_overruns, flag_at.
  apply crash_need; [intros|unfold fits; lia]. apply crash_hdr4; [lia|]. apply crash_checked; [exact Hd|intros F|tauto].
  apply (and_crash _ _ _ F). unfold fits in F. apply crash_at; [intros|lia]. pose proof (shiftr_7_bit _ (oct_lt b 4 Hb)) as [E1 E0].
  apply crash_be_at; [intros|unfold if_set; destruct (N.testbit _ _), (N.testbit _ _); lia]. cbv zeta. rewrite E1, E0, !land_shift_1.
  destruct (N.testbit (oct b 4) 7), (N.testbit (oct b 4) 6); cbn [negb andb N.eqb Pos.eqb if_set]; cr; lia.
Qed.
Lemma S103pdf_crash : forall m b, bytes b -> declared b <= 65531 -> crash (s103_overruns b) (S103pdf_unmarshal m b).
Proof.
  intros m b Hb Hd. unfold S103pdf_unmarshal, s103_overruns.
  apply crash_need; [intros|unfold fits; lia]. apply crash_hdr4; [lia|]. apply crash_checked; [exact Hd|intros F|tauto].
  apply (and_crash _ _ _ F). unfold fits in F. cr; fold (lof b 13) in *; fold (lof b 25) in *; eqs; try lia.
Qed.
Ltac fits_first F := apply crash_need; [intros|unfold fits; lia]; apply crash_hdr4; [lia|]; apply crash_checked; [assumption|intros F|tauto];
  apply (and_crash _ _ _ F).
Lemma S1udf_crash : forall m b, declared b <= 65531 -> crash (s1u_overruns b) (S1udf_unmarshal m b).
Proof.
  intros m b Hd. unfold S1udf_unmarshal, s1u_overruns.
  apply crash_need; [intros|unfold fits; lia]. apply crash_hdr4; [lia|]. apply crash_checked; [exact Hd|intros F|tauto].
  apply (and_crash _ _ _ F). unfold fits in F. cr; eqs; try lia.
Qed.
Lemma NodeNumber_crash : forall m b, declared b <= 65531 -> crash (node_number_overruns b) (NodeNumber_unmarshal m b).
Proof.
  intros m b Hd. unfold NodeNumber_unmarshal, node_number_overruns.
  apply crash_need; [intros|unfold fits; lia]. apply crash_hdr4; [lia|]. apply crash_checked; [exact Hd|intros F|tauto].
  apply (and_crash _ _ _ F). unfold fits in F. apply crash_at; [intros|lia]. fold (lof b 4). apply crash_slice; [lia|intros|lia].
  apply crash_slice_from; rewrite firstn_length, skipn_length; [intros; apply crash_ok; lia|lia].
Qed.
Lemma PagingServiceInfo_crash : forall m b, crash (paging_overruns b) (PagingServiceInfo_unmarshal m b).
Proof. intros m b. unfold PagingServiceInfo_unmarshal, paging_overruns. cr; eqs; try lia. Qed.

Lemma bit_1 x : bit x 1 = N.testbit x 0. Proof. exact (bit_pow2 x 0). Qed.
Lemma bit_2 x : bit x 2 = N.testbit x 1. Proof. exact (bit_pow2 x 1). Qed.
Lemma bit_4 x : bit x 4 = N.testbit x 2. Proof. exact (bit_pow2 x 2). Qed.
Lemma bit_8 x : bit x 8 = N.testbit x 3. Proof. exact (bit_pow2 x 3). Qed.
Lemma bit_16 x : bit x 16 = N.testbit x 4. Proof. exact (bit_pow2 x 4). Qed.
Lemma PC5QosFlow_crash : forall m b, declared b <= 65531 -> crash (pc5_overruns b) (PC5QosFlow_unmarshal m b).
Proof.
  intros m b Hd. unfold PC5QosFlow_unmarshal, pc5_overruns, flag_at.
  apply crash_need; [intros|unfold fits; lia]. apply crash_hdr4; [lia|]. apply crash_checked; [exact Hd|intros F|tauto].
  apply (and_crash _ _ _ F). unfold fits in F. rewrite <- bit_1. cr; unfold if_set in *; destruct (bit (oct b 4) 1); try lia; try discriminate.
Qed.
Lemma SpecialIEWithTypeExt_crash : forall m b, declared b <= 65531 -> crash (special_overruns b) (SpecialIEWithTypeExt_unmarshal m b).
Proof.
  intros m b Hd. unfold SpecialIEWithTypeExt_unmarshal, special_overruns. apply crash_need; [intros|lia]. apply crash_hdr4; [lia|].
  apply crash_be_at; [intros|lia]. apply crash_checked; [exact Hd|intros F|intros F [K|(_ & K & _)]; [lia|contradiction]].
  destruct (N.eq_dec (declared b) 1) as [E|E].
  - left. split; [right; auto|]. rewrite E. unfold slice. cbn. reflexivity.
  - unfold fits in *. cr; lia.
Qed.
Lemma PrivateExtension_crash : forall m b, declared b <= 65531 -> crash (private_overruns b) (PrivateExtension_unmarshal m b).
Proof.
  intros m b Hd. unfold PrivateExtension_unmarshal, private_overruns. apply crash_need; [intros|lia]. apply crash_hdr4; [lia|].
  apply crash_checked; [exact Hd|intros F|tauto]. apply crash_be_at; [intros|lia]. apply crash_end16; [lia|].
  destruct (N.eq_dec (declared b) 1) as [E|E].
  - left. split; [auto|]. rewrite E. unfold slice. cbn. reflexivity.
  - unfold fits in *. cr; lia.
Qed.
Lemma RemoteUserId_crash : forall m b, crash (remote_user_overruns b) (RemoteUserId_unmarshal m b).
Proof.
  intros m b. unfold RemoteUserId_unmarshal, remote_user_overruns. apply crash_need; [intros|lia]. apply crash_hdr4; [lia|].
  apply crash_at; [intros|lia]. apply crash_at; [intros|lia]. fold (lof b 5). apply crash_slice; [lia|intros|lia].
  right. split; [lia|]. unfold user_digits.
  assert (U : forall (f : bool) c, returns (if f then need b (c + 1) (IEInvalidLength 192) (bind (lv_at b c (IEInvalidLength 192)) (fun p => let '(s, c') := p in Ok (Some (tbcd_decode s), c'))) else Ok (None, c))).
  { intros [|] c; [|exact I]. safe2. }
  apply returns_bind; [apply U|]. intros [ms c] _. apply returns_bind; [apply U|]. intros [im c'] _. exact I.
Qed.
Lemma MonitoringEventExtensionInfo_crash : forall m b, declared b <= 65531 -> crash (monitoring_overruns b) (MonitoringEventExtensionInfo_unmarshal m b).
Proof.
  intros m b Hd. unfold MonitoringEventExtensionInfo_unmarshal, monitoring_overruns.
  apply crash_need; [intros|unfold fits; lia]. apply crash_hdr4; [lia|]. apply crash_checked; [exact Hd|intros F|tauto].
  apply (and_crash _ _ _ F). unfold fits in F. apply crash_be_at; [intros|lia]. apply crash_at; [intros|lia]. cbv zeta. fold (lof b 9).
  apply crash_need; [intros|lia]. apply crash_slice; [lia|intros|lia]. right. split; [lia|].
  assert (U : forall (f : bool) n c, returns (opt_be_at f n (IEInvalidLength 206) b c)).
  { intros [|] n c; [|exact I]. unfold opt_be_at. safe2. }
  apply returns_bind; [unfold utf8_or; destruct (utf8_strict _); exact I|]. intros id _. apply returns_at; [lia|]. intros x Hx.
  apply returns_bind; [apply U|]. intros [rm c] _. apply returns_bind; [apply U|]. intros [ext c'] _. exact I.
Qed.
Lemma ExtendedTraceInformation_crash : forall m b, crash (trace_overruns b) (ExtendedTraceInformation_unmarshal m b).
Proof.
  intros m b. unfold ExtendedTraceInformation_unmarshal, trace_overruns. apply crash_need; [intros|lia]. apply crash_hdr4; [lia|].
  apply crash_be_at; [intros|lia]. apply crash_plmn_at; [intros|lia]. cbv zeta.
  apply crash_lv_at; [intros U0 U1 x Ux|lia|lia]. change (10 + 1 + lof b 10)%nat with (11 + lof b 10)%nat in *. set (c1 := (11 + lof b 10)%nat) in *. clearbody c1.
  apply crash_lv_at; [intros U2 U3 x2 Ux2|intros; set (u := lof b c1) in *; lia|lia]. set (c2 := (c1 + 1 + lof b c1)%nat) in *. clearbody c2.
  apply crash_need; [intros|lia]. apply crash_at; [intros|lia].
  apply crash_lv_at; [intros U5 U6 x3 Ux3|lia|lia]. replace (c2 + 1 + 1 + lof b (c2 + 1))%nat with (c2 + 2 + lof b (c2 + 1))%nat in * by lia.
  set (c3 := (c2 + 2 + lof b (c2 + 1))%nat) in *. clearbody c3. apply crash_at; [intros|lia].
  right. split; [lia|]. apply returns_bind; [|intros; exact I]. apply returns_if; intros; [safe2|]. apply returns_if; intros; [safe2|exact I].
Qed.
Lemma SourceIdentification_crash : forall m b, crash (source_overruns b) (SourceIdentification_unmarshal m b).
Proof.
  intros m b. unfold SourceIdentification_unmarshal, source_overruns. apply crash_need; [intros|lia]. apply crash_hdr4; [lia|].
  apply crash_slice; [lia|intros|lia].
  assert (C : forall t, returns (orelse (CellIdentifier_dec t) (IEIncorrect 129)) /\ returns (orelse (CellIdentifier_dec t) (IEIncorrect 0))).
  { intros t. assert (returns (CellIdentifier_dec t)) by (unfold CellIdentifier_dec; safe2). destruct (CellIdentifier_dec t); cbn in *; auto. }
  destruct (C (firstn (12 - 4) (skipn 4 b))) as [C1 _]. destruct (orelse (CellIdentifier_dec (firstn (12 - 4) (skipn 4 b))) (IEIncorrect 129)) as [cell|e| |] eqn:EC; try contradiction.
  2:{ exfalso. revert EC. unfold CellIdentifier_dec, need. rewrite firstn_length, skipn_length. destruct (Nat.leb_spec 8 (Nat.min (12 - 4) (length b - 4))); [|lia].
      set (v := firstn _ _). assert (Lv : length v = 8%nat) by (unfold v; rewrite firstn_length, skipn_length; lia). clearbody v.
      do 8 (destruct v as [|? v]; [discriminate Lv|]). cbn. discriminate. }
  cbn [bind]. apply crash_slice_from; [intros|lia]. unfold source_type_dec.
  assert (Lt : length (skipn 12 b) = (length b - 12)%nat) by apply skipn_length.
  assert (O : oct (skipn 12 b) 0 = oct b 12) by (unfold oct; rewrite <- (firstn_skipn 12 b) at 2; rewrite app_nth2; rewrite firstn_length_le by lia; [f_equal; lia|lia]).
  unfold at_. destruct (skipn 12 b) as [|x r] eqn:ES; [cbn in Lt; lia|]. cbn [nth_error bind]. change (x = oct b 12) in O. rewrite <- O. clear O ES.
  unfold slice_from. cbn [length Nat.leb skipn bind] in *.
  destruct (N.eqb_spec x 0) as [->|X0].
  { right. split; [lia|]. destruct (C r) as [_ C2]. destruct (orelse (CellIdentifier_dec r) (IEIncorrect 0)); try contradiction; exact I. }
  destruct (N.eqb_spec x 1) as [->|X1]; [|right; split; [lia|exact I]].
  unfold SourceRncIdentifier_dec. destruct (Nat.ltb_spec (length r) 6) as [L6|L6].
  - destruct (Nat.leb_spec 5 (length r)) as [L5|L5].
    + right. split; [lia|].
      assert (R : returns (let? p := plmn_at r 0 in let? i := be_at r 3 2 in Ok (mkSourceRnc p i None))) by safe2.
      destruct (let? p := plmn_at r 0 in let? i := be_at r 3 2 in Ok (mkSourceRnc p i None)); cbn in *; try contradiction; exact I.
    + left. split; [lia|].
      assert (R : (let? p := plmn_at r 0 in let? i := be_at r 3 2 in Ok (mkSourceRnc p i None)) = Panic).
      { destruct (Nat.leb_spec 3 (length r)) as [L3|L3].
        - destruct r as [|r0 [|r1 [|r2 r]]]; try (cbn in L3; lia). do 2 (destruct r as [|? r]; [reflexivity|]). cbn in L5. lia.
        - destruct r as [|r0 [|r1 [|r2 r]]]; try reflexivity. cbn in L3; lia. }
      rewrite R. reflexivity.
  - right. split; [lia|]. destruct (Nat.leb_spec 7 (length r)); [|exact I].
    assert (R : returns (let? p := plmn_at r 0 in let? i := be_at r 3 2 in let? e := be_at r 5 2 in Ok (mkSourceRnc p i (Some e)))) by safe2.
    destruct (let? p := plmn_at r 0 in let? i := be_at r 3 2 in let? e := be_at r 5 2 in Ok (mkSourceRnc p i (Some e))); cbn in *; try contradiction; exact I.
Qed.

Lemma crash_multicast {A} P b c (k : ipaddr * nat -> res A) :
  (forall n, ip_size (oct b c) = Some n -> (c + 1 + n <= length b)%nat -> forall x, crash P (k (x, (c + 1 + n)%nat))) ->
  ((length b <= c)%nat -> P) ->
  ((c < length b)%nat -> ip_size (oct b c) = None -> ~ P) ->
  (forall n, (c < length b)%nat -> ip_size (oct b c) = Some n -> (length b < c + 1 + n)%nat -> ~ P) ->
  crash P (bind (multicast_ip_at b c) k).
Proof.
  intros H K L M. unfold multicast_ip_at. rewrite bind_bind. apply crash_at; [|exact K]. intros Hc. unfold ip_size in *.
  destruct (N.eqb_spec (oct b c) 4).
  - unfold need. destruct (Nat.leb_spec (c + 5) (length b)).
    + rewrite slice_ok by lia. cbn [bind]. replace (c + 5)%nat with (c + 1 + 4)%nat by lia. apply H; [reflexivity|lia].
    + apply crash_err. apply (M 4%nat); auto. lia.
  - destruct (N.eqb_spec (oct b c) 80).
    + unfold need. destruct (Nat.leb_spec (c + 17) (length b)).
      * rewrite slice_ok by lia. cbn [bind]. replace (c + 17)%nat with (c + 1 + 16)%nat by lia. apply H; [reflexivity|lia].
      * apply crash_err. apply (M 16%nat); auto. lia.
    + apply crash_err. auto.
Qed.
Lemma MbmsIpMulticastDistribution_crash : forall m b, declared b <= 65531 -> crash (multicast_overruns b) (MbmsIpMulticastDistribution_unmarshal m b).
Proof.
  intros m b Hd. unfold MbmsIpMulticastDistribution_unmarshal, multicast_overruns.
  apply crash_need; [intros L8|lia]. apply crash_hdr4; [lia|]. apply crash_be_at; [intros _ teid|lia]. apply crash_checked; [exact Hd|intros F|tauto].
  apply (and_crash _ _ _ F), (and_crash _ _ _ L8). unfold fits in F. apply crash_multicast.
  - intros n1 E1 L1 x1. cbv beta iota. change (8 + 1 + n1)%nat with (9 + n1)%nat in *. apply crash_multicast.
    + intros n2 E2 L2 x2. cbv beta iota. replace (9 + n1 + 1 + n2)%nat with (10 + n1 + n2)%nat in * by lia.
      assert (Q : (length b = 8%nat \/ (exists n, ip_size (oct b 8) = Some n /\ (length b = (9 + n)%nat \/ (exists n', ip_size (oct b (9 + n)) = Some n' /\ length b = (10 + n + n')%nat)))) <-> length b = (10 + n1 + n2)%nat).
      { split; [|intros E; right; exists n1; split; [exact E1|right; exists n2; auto]].
        intros [E|(n & En & [E|(n' & En' & E)])]; [lia|rewrite E1 in En; injection En as <-; lia|].
        rewrite E1 in En; injection En as <-. rewrite E2 in En'. injection En' as <-. exact E. }
      apply (crash_ext _ _ _ (iff_sym Q)). apply crash_need; [intros|lia]. apply crash_at; [intros|lia]. cr; lia.
    + intros L. right. exists n1. split; [exact E1|left; lia].
    + intros L E2 [E|(n & En & [E|(n' & En' & E)])]; [lia|rewrite E1 in En; injection En as <-; lia|].
      rewrite E1 in En; injection En as <-. congruence.
    + intros n2 L E2 L2 [E|(n & En & [E|(n' & En' & E)])]; [lia|rewrite E1 in En; injection En as <-; lia|].
      rewrite E1 in En; injection En as <-. rewrite E2 in En'; injection En' as <-. lia.
  - intros L. left. lia.
  - intros L E [E'|(n & En & _)]; [lia|congruence].
  - intros n L E L2 [E'|(n' & En & [X|(? & _ & X)])]; [lia| |]; rewrite E in En; injection En as <-; lia.
Qed.
Lemma crash_opt_at {A} P f b c (k : option N * nat -> res A) :
  (forall x, crash P (k (x, if f && (c <? length b)%nat then S c else c))) -> crash P (bind (opt_at f b c) k).
Proof.
  intros H. unfold opt_at. destruct (f && (c <? length b)%nat) eqn:E; [|exact (H None)]. rewrite bind_bind. apply crash_at; [intros; apply H|].
  intros. apply andb_prop in E as [_ E]. apply Nat.ltb_lt in E. lia.
Qed.
Lemma mdt_plmns_returns b : forall fuel c, (length b <= c + 3 * fuel)%nat -> returns (mdt_plmns_loop fuel b c).
Proof.
  induction fuel as [|f IH]; intros c H; cbn [mdt_plmns_loop].
  - destruct (Nat.ltb_spec c (length b)); [lia|exact I].
  - destruct (Nat.ltb_spec c (length b)); [|exact I]. apply returns_need. intros. safe2. apply returns_bind; [apply IH; lia|intros; exact I].
Qed.
Lemma shiftr_3 x : (N.shiftr x 3 =? 1) = true <-> 8 <= x < 16.
Proof.
  rewrite N.eqb_eq, N.shiftr_div_pow2. change (2 ^ 3) with 8. split; intros H.
  - pose proof (N.div_mod x 8 ltac:(lia)). pose proof (N.mod_lt x 8 ltac:(lia)). lia.
  - symmetry. apply (N.div_unique x 8 1 (x - 8)); lia.
Qed.
Lemma MdtConfiguration_crash : forall m b, crash (mdt_overruns b) (MdtConfiguration_unmarshal m b).
Proof.
  intros m b. unfold MdtConfiguration_unmarshal, mdt_overruns. cbv zeta. apply crash_need; [intros L15|lia]. apply (and_crash _ _ _ L15). apply crash_hdr4; [lia|].
  apply crash_at; [intros _|lia]. apply crash_slice; [lia|intros _|lia]. do 6 (apply crash_at; [intros _|lia]). fold (lof b 14).
  match goal with |- crash _ (bind ?r _) => set (R := r) end.
  assert (ER : ((length b < 15 + lof b 14)%nat /\ R = Panic) \/ exists a, R = Ok (a, (15 + lof b 14)%nat)).
  { unfold R, lof. destruct (N.eqb_spec (oct b 14) 0) as [->|E]; [right; exists None; reflexivity|]. fold (lof b 14).
    destruct (Nat.leb_spec (15 + lof b 14) (length b)) as [L|L]; [right; eexists; rewrite slice_ok by lia; reflexivity|].
    left. split; [exact L|]. unfold slice. destruct (Nat.leb_spec (15 + lof b 14) (length b)); [lia|]. rewrite andb_false_r. reflexivity. }
  clearbody R. destruct ER as [[L ->]|[a ->]]; [apply crash_panic; left; lia|]. cbn [bind]. set (c := (15 + lof b 14)%nat). clearbody c.
  apply crash_at; [intros Lc|left; assumption]. cbv zeta. rewrite !land_shift_1. change (oct b c) with (oct b c) at 1.
  assert (E0 : N.land (oct b c) 1 = if N.testbit (oct b c) 0 then 1 else 0) by (rewrite <- (land_shift_1 (oct b c) 0), N.shiftr_0_r; reflexivity).
  rewrite E0. unfold flag_at. set (f0 := N.testbit (oct b c) 0). set (f1 := N.testbit (oct b c) 1). set (f2 := N.testbit (oct b c) 2).
  replace ((if f0 then 1 else 0) =? 1) with f0 by (destruct f0; reflexivity). replace ((if f1 then 1 else 0) =? 1) with f1 by (destruct f1; reflexivity).
  replace ((if f2 then 1 else 0) =? 1) with f2 by (destruct f2; reflexivity). clearbody f0 f1 f2. clear E0.
  apply crash_opt_at. intros x0. cbv beta iota. apply crash_opt_at. intros x1. cbv beta iota. apply crash_opt_at. intros x2. cbv beta iota.
  match goal with |- context [at_ b ?e] => set (c' := e) end.
  assert (HC : ((length b <= c + 1 + if_set f0 1 + if_set f1 1 + if_set f2 1 -> length b <= c') /\ (c + 1 + if_set f0 1 + if_set f1 1 + if_set f2 1 < length b -> c' < length b))%nat).
  { unfold c', if_set. destruct f0, f1, f2; cbn [andb]; repeat match goal with |- context [(?x <? ?y)%nat] => destruct (Nat.ltb_spec x y) end; lia. }
  clearbody c'. apply crash_bind_l; [|intros; exact I]. destruct (N.shiftr (oct b c) 3 =? 1) eqn:E3.
  - apply shiftr_3 in E3. apply crash_at; [intros L'|intros; right; split; [exact E3|]].
    + right. split; [|apply returns_if; intros; [apply returns_need; intros; apply returns_bind; [apply mdt_plmns_returns; lia|intros; exact I]|exact I]]. lia.
    + lia.
  - apply crash_ok. intros [K|[K _]]; [lia|]. apply shiftr_3 in K. congruence.
Qed.
Lemma crash_many {A B} (dec : list N -> res A) s e n : (forall t, returns (dec t)) -> (forall t, (s <= length t)%nat -> exists x, dec t = Ok x) ->
  forall P b c (k : list A * nat -> res B), (forall l, crash P (k (l, (c + s * n)%nat))) -> ((length b < c + s * n)%nat -> ~ P) ->
  crash P (bind (many_checked dec s e n b c) k).
Proof.
  intros R T P b c k H K.
  assert (G : forall c, (exists l, many_checked dec s e n b c = Ok (l, (c + s * n)%nat)) \/ ((length b < c + s * n)%nat /\ exists e', many_checked dec s e n b c = Err e')).
  { clear c k H K. induction n as [|n IH]; intros c; [left; exists []; rewrite Nat.mul_0_r, Nat.add_0_r; reflexivity|]. cbn [many_checked]. unfold need.
    destruct (Nat.leb_spec c (length b)) as [L|L]; [|right; split; [nia|eauto]]. unfold slice_from. destruct (Nat.leb_spec c (length b)); [|lia]. cbn [bind].
    specialize (R (skipn c b)). destruct (dec (skipn c b)) as [x|e'| |] eqn:E; try contradiction; cbn [orelse bind].
    - destruct (IH (c + s)%nat) as [[l ->]|[L' [e' ->]]]; [left; exists (x :: l); cbn [bind]; do 2 f_equal; lia|right; split; [lia|exists e'; reflexivity]].
    - right. split; [|eauto]. destruct (Nat.leb_spec s (length (skipn c b))) as [L'|L']; [destruct (T _ L') as [y Ey]; congruence|]. rewrite skipn_length in L'. nia. }
  destruct (G c) as [[l ->]|[L [e' ->]]]; [apply H|apply crash_err; auto].
Qed.
Lemma dec_total : forall t, ((5 <= length t)%nat -> exists x, Tai_dec t = Ok x) /\ ((6 <= length t)%nat -> exists x, MacroEnbId_dec t = Ok x) /\
  ((7 <= length t)%nat -> exists x, Ecgi_dec t = Ok x) /\ ((7 <= length t)%nat -> exists x, Rai_dec t = Ok x) /\ ((7 <= length t)%nat -> exists x, Sai_dec t = Ok x) /\
  ((7 <= length t)%nat -> exists x, Cgi_dec t = Ok x) /\ ((5 <= length t)%nat -> exists x, Lai_dec t = Ok x) /\ ((6 <= length t)%nat -> exists x, ExtMacroEnbId_dec t = Ok x) /\
  ((6 <= length t)%nat -> exists x, Rai_dec t = Ok x).
Proof.
  intros t. repeat split; intros H; lazymatch type of H with (5 <= _)%nat => do 5 (destruct t as [|? t]; [cbn in H; lia|]) | (6 <= _)%nat => do 6 (destruct t as [|? t]; [cbn in H; lia|]) | (7 <= _)%nat => do 7 (destruct t as [|? t]; [cbn in H; lia|]) end; try (eexists; reflexivity).
  unfold ExtMacroEnbId_dec, need, plmn_at, slice, at_. cbn -[N.shiftr N.eqb be24 N.land N.div N.modulo]. repeat match goal with |- context [if ?c then _ else _] => destruct c end; eexists; reflexivity.
Qed.
Lemma and63 x : N.land x 63 = x mod 64. Proof. exact (N.land_ones x 6). Qed.
Lemma and15 x : N.land x 15 = x mod 16. Proof. exact (N.land_ones x 4). Qed.
Ltac many_step := apply crash_many; [first [apply Cgi_dec_returns|apply Sai_dec_returns|apply Rai_dec_returns|apply Tai_dec_returns|apply Ecgi_dec_returns|apply MacroEnbId_dec_returns|apply ExtMacroEnbId_dec_returns]
  |intros; apply dec_total; lia|intros; cbv beta iota|].
Lemma PresenceReportingAreaAction_crash : forall m b, declared b <= 65531 -> crash (praa_overruns b) (PresenceReportingAreaAction_unmarshal m b).
Proof.
  intros m b Hd. unfold PresenceReportingAreaAction_unmarshal, praa_overruns. cbv zeta.
  apply crash_need; [intros|unfold fits; lia]. apply crash_hdr4; [lia|]. apply crash_checked; [exact Hd|intros F|tauto].
  apply (and_crash _ _ _ F). unfold fits in F. apply crash_at; [intros _|lia]. apply crash_be_at; [intros _ prai|lia]. do 6 (apply crash_at; [intros ?|lia]).
  apply crash_need; [intros L14|lia]. rewrite !and63, and15, N.shiftr_div_pow2. change (2 ^ 4) with 16. unfold low6.
  set (n1 := N.to_nat (oct b 8 / 16)). set (n2 := N.to_nat (oct b 9 mod 64)). set (n3 := N.to_nat (oct b 10 mod 64)). set (n4 := N.to_nat (oct b 11 mod 64)).
  set (n5 := N.to_nat (oct b 8 mod 16)). set (n6 := N.to_nat (oct b 12 mod 64)). set (n7 := N.to_nat (oct b 13 mod 64)). clearbody n1 n2 n3 n4 n5 n6 n7.
  many_step; [|lia]. many_step; [|lia]. many_step; [|lia]. many_step; [|lia]. many_step; [|lia]. many_step; [|lia]. many_step; [|lia].
  match goal with |- context [at_ b ?e] => set (c := e); assert (Ec : c = (14 + 5 * n1 + 6 * (n2 + n3) + 7 * (n4 + n5 + n6 + n7))%nat) by (unfold c; lia) end. clearbody c. rewrite <- Ec. clear Ec.
  apply crash_bind_l; [|intros; exact I]. destruct (Nat.leb_spec c (length b)); [|apply crash_ok; lia]. apply crash_at; [intros|intros; right; lia].
  many_step; [apply crash_ok; lia|lia].
Qed.
Definition loc_need (k : N) : nat := if k =? 3 then 6 else loc_step k.
Lemma loc_dec_shape k t : 1 <= k <= 8 -> ((loc_need k <= length t)%nat /\ exists x, loc_dec k t = Ok x) \/ ((length t < loc_need k)%nat /\ exists e, loc_dec k t = Err e).
Proof.
  intros H. assert (C : k = 1 \/ k = 2 \/ k = 3 \/ k = 4 \/ k = 5 \/ k = 6 \/ k = 7 \/ k = 8) by lia.
  destruct (Nat.leb_spec (loc_need k) (length t)) as [L|L]; [left|right]; (split; [exact L|]); pose proof (dec_total t) as (D1 & D2 & D3 & D4 & D5 & D6 & D7 & D8 & D9);
    destruct C as [C|[C|[C|[C|[C|[C|[C|C]]]]]]]; subst k; (match type of L with context [loc_need ?k] => let v := eval vm_compute in (loc_need k) in change (loc_need k) with v in L end); unfold loc_dec; (repeat match goal with |- context [?a =? ?b] => let v := eval vm_compute in (a =? b) in change (a =? b) with v; cbv iota end);
    try (match goal with |- context [bind (?d t)] => assert (E : exists x, d t = Ok x) by (first [apply D1|apply D2|apply D3|apply D9|apply D5|apply D6|apply D7|apply D8]; exact L); destruct E as [x ->]; eexists; reflexivity end).
  all: match goal with |- context [bind (?d _)] => unfold d end; unfold need; match goal with |- context [(?n <=? length ?t)%nat] => destruct (Nat.leb_spec n (length t)); [lia|] end; eexists; reflexivity.
Qed.
Lemma crash_loc P k ks b c : 1 <= k <= 8 -> (c <= length b)%nat -> ((c + loc_need k <= length b)%nat -> crash P (loc_loop ks b (c + loc_step k))) ->
  ((length b < c + loc_need k)%nat -> ~ P) -> crash P (loc_loop (k :: ks) b c).
Proof.
  intros Hk Hc H K. cbn [loc_loop]. unfold slice_from. destruct (Nat.leb_spec c (length b)); [|lia]. cbn [bind].
  destruct (loc_dec_shape k (skipn c b) Hk) as [[L [x ->]]|[L [e ->]]]; rewrite skipn_length in L; cbn [bind].
  - apply crash_bind_l; [apply H; lia|intros; exact I].
  - apply crash_err, K. lia.
Qed.
Lemma loc_tail_returns b : forall l c, Forall (fun k => 4 <= k <= 8) l -> (c <= length b)%nat -> returns (loc_loop l b c).
Proof.
  intros l c F. revert c. induction F as [|k l Hk F IH]; intros c Hc; [exact I|].
  assert (C : crash False (loc_loop (k :: l) b c)).
  { apply crash_loc; [lia|exact Hc| |tauto]. intros L. right. split; [tauto|]. apply IH. unfold loc_need in L. destruct (N.eqb_spec k 3); lia. }
  destruct C as [[[] _]|[_ R]]; exact R.
Qed.
Lemma to_flags_tail x : x < 256 -> (filter (fun k => bit x (2 ^ (k - 1))) [4; 5; 6; 7; 8] = [] <-> x < 8).
Proof. intros H. cases_lt 256%nat H; (split; [reflexivity || discriminate|]); (reflexivity || discriminate). Qed.
Lemma Uli_crash : forall m b, bytes b -> declared b <= 65531 -> crash (uli_overruns b) (Uli_unmarshal m b).
Proof.
  intros m b Hb Hd. unfold Uli_unmarshal, uli_overruns, flag_at.
  apply crash_need; [intros|unfold fits; lia]. apply crash_hdr4; [lia|]. apply crash_checked; [exact Hd|intros F|tauto].
  apply (and_crash _ _ _ F). unfold fits in F. apply crash_at; [intros _|lia]. apply crash_bind_l; [|intros; exact I].
  pose proof (to_flags_tail _ (oct_lt b 4 Hb)) as T. unfold to_flags. change [1; 2; 3; 4; 5; 6; 7; 8] with ([1; 2; 3] ++ [4; 5; 6; 7; 8]). rewrite filter_app.
  assert (A : Forall (fun k => 4 <= k <= 8) (filter (fun k => bit (oct b 4) (2 ^ (k - 1))) [4; 5; 6; 7; 8])).
  { apply Forall_forall. intros k K. apply filter_In in K as [K _]. cbn [In] in K. lia. }
  set (l := filter _ [4; 5; 6; 7; 8]) in *. clearbody l. cbn [filter]. rewrite !bit_pow2. change (1 - 1) with 0. change (2 - 1) with 1. change (3 - 1) with 2.
  set (x := oct b 4) in *. assert (G : forall c, (c <= length b)%nat -> forall P : Prop, ~ P -> crash P (loc_loop l b c)).
  { intros c Hc P HP. right. split; [exact HP|]. apply loc_tail_returns; assumption. }
  assert (G3 : forall c, (c <= length b)%nat -> N.testbit x 2 = true -> crash (true = true /\ 8 <= x /\ length b = (c + 6)%nat) (loc_loop (3 :: l) b c)).
  { intros c Hc _. apply crash_loc; [lia|exact Hc| |change (loc_need 3) with 6%nat; lia]. change (loc_need 3) with 6%nat. change (loc_step 3) with 7%nat. intros L.
    destruct (Nat.leb_spec (c + 7) (length b)) as [L7|L7]; [apply G; lia|]. destruct (N.ltb_spec x 8) as [X|X].
    - rewrite (proj2 T X). apply crash_ok. lia.
    - destruct l as [|k l']; [apply proj1 in T; specialize (T eq_refl); lia|]. cbn [loc_loop]. unfold slice_from. destruct (Nat.leb_spec (c + 7) (length b)); [lia|]. apply crash_panic. split; [reflexivity|lia]. }
  destruct (N.testbit x 0), (N.testbit x 1), (N.testbit x 2) eqn:E2; cbn [if_set app];
    repeat (apply crash_loc; [lia|lia| |]; change (loc_need 1) with 7%nat; change (loc_need 2) with 7%nat; change (loc_step 1) with 7%nat; change (loc_step 2) with 7%nat; [intros|lia]).
  all: try (apply G; [lia|intros [? _]; discriminate]). all: apply G3; [lia|reflexivity].
Qed.
