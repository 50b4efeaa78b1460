(* V2Hang.v - the decoder of a list of GTPv2-C information elements against V2HangSpec.v. *)
From Verif Require Import Base BaseFacts V2CrashSpec V2HangSpec.
From Verif Require Export V2CrashDec V2ErrFacts V2OwnFacts.
Local Open Scope N_scope.

(* a result is Ok exactly if [P] *)
Definition reads {A} (P : Prop) (r : res A) : Prop := (P /\ exists x, r = Ok x) \/ (~ P /\ forall x, r <> Ok x).
Lemma reads_ok {A} (P : Prop) (x : A) : P -> reads P (Ok x).
Proof. left. eauto. Qed.
Lemma reads_err {A} (P : Prop) e : ~ P -> @reads A P (Err e).
Proof. right. split; [assumption|discriminate]. Qed.
Lemma reads_panic {A} (P : Prop) : ~ P -> @reads A P Panic.
Proof. right. split; [assumption|discriminate]. Qed.
Lemma reads_need {A} P b n e (k : res A) : ((n <= length b)%nat -> reads P k) -> ((length b < n)%nat -> ~ P) -> reads P (need b n e k).
Proof. intros H K. unfold need. destruct (Nat.leb_spec n (length b)); [auto|apply reads_err; auto]. Qed.
Lemma reads_if {A} P (c : bool) (x y : res A) : (c = true -> reads P x) -> (c = false -> reads P y) -> reads P (if c then x else y).
Proof. destruct c; auto. Qed.
Lemma reads_at {A} P b c (k : N -> res A) : ((c < length b)%nat -> reads P (k (oct b c))) -> ((length b <= c)%nat -> ~ P) -> reads P (bind (at_ b c) k).
Proof. intros H K. rewrite at_eq. destruct (Nat.ltb_spec c (length b)); cbn [bind]; [auto|apply reads_panic; auto]. Qed.
Lemma reads_slice {A} P b i j (k : list N -> res A) : (i <= j)%nat ->
  ((j <= length b)%nat -> reads P (k (firstn (j - i) (skipn i b)))) -> ((length b < j)%nat -> ~ P) -> reads P (bind (slice b i j) k).
Proof. intros Hij H K. rewrite slice_eq by exact Hij. destruct (Nat.leb_spec j (length b)); cbn [bind]; [auto|apply reads_panic; auto]. Qed.
Lemma reads_be_at {A} P b i n (k : N -> res A) : ((i + n <= length b)%nat -> forall v, reads P (k v)) -> ((length b < i + n)%nat -> ~ P) -> reads P (bind (be_at b i n) k).
Proof. intros H K. unfold be_at. rewrite bind_bind. apply reads_slice; [lia| |auto]. intros. cbn [bind]. auto. Qed.
Lemma reads_plmn_at {A} P b i (k : plmn -> res A) : ((i + 3 <= length b)%nat -> forall p, reads P (k p)) -> ((length b < i + 3)%nat -> ~ P) -> reads P (bind (plmn_at b i) k).
Proof.
  intros H K. destruct (Nat.leb_spec (i + 3) (length b)) as [L|L].
  - unfold plmn_at. rewrite slice_ok by lia. cbn [bind].
    assert (Hl : length (firstn (i + 3 - i) (skipn i b)) = 3%nat) by (rewrite firstn_length, skipn_length; lia).
    destruct (firstn _ _) as [|x [|y [|z [|? ?]]]]; try discriminate Hl. cbn. apply H, L.
  - unfold plmn_at. rewrite bind_bind. apply reads_slice; [lia| |auto]. intros. lia.
Qed.
Lemma reads_lv_at {A} P b c e (k : list N * nat -> res A) :
  ((c + 1 + lof b c <= length b)%nat -> forall x, reads P (k (x, (c + 1 + lof b c)%nat))) ->
  ((length b < c + 1 + lof b c)%nat -> ~ P) -> reads P (bind (lv_at b c e) k).
Proof.
  intros H K. rewrite lv_eq. destruct (Nat.ltb_spec c (length b)); [|apply reads_panic, K; lia].
  destruct (Nat.leb_spec (c + 1 + lof b c) (length b)); cbn [bind]; [auto|apply reads_err, K; lia].
Qed.
(* the check of the length passes whatever there is: the sum is 0 *)
Lemma reads_wrapped {A} P b e (k : res A) : declared b = 65532 -> reads P k -> reads P (checked Release (declared b) b e k).
Proof. intros -> H. exact H. Qed.
Lemma reads_inner {A} P n b e (k : res A) : (0 < n)%nat -> (n <= 1000)%nat -> ((4 + n <= length b)%nat -> reads P k) -> ((length b < 4 + n)%nat -> ~ P) ->
  reads P (checked Release (N.of_nat n) b e k).
Proof.
  intros H0 H1 H K. unfold checked, check_tliv_ie_buffer. rewrite (proj2 (N.eqb_neq _ _)) by lia. rewrite add16_small by lia. cbn [bind].
  destruct (Nat.leb_spec (N.to_nat (N.of_nat n + 4)) (length b)); [apply H; lia|apply reads_err, K; lia].
Qed.
Lemma reads_hdr4 {A} P b (k : N -> N -> res A) : (4 <= length b)%nat -> reads P (k (declared b) (oct b 3)) -> reads P (hdr4 b k).
Proof. intros H K. rewrite hdr4_eq by exact H. exact K. Qed.
Ltac rd1 := first
  [ match goal with |- reads _ (need _ _ _ _) => apply reads_need; intros end
  | match goal with |- reads _ (hdr4 _ _) => apply reads_hdr4; [lia|] end
  | match goal with |- reads _ (checked _ (declared _) _ _ _) => apply reads_wrapped; [assumption|] end
  | match goal with |- reads _ (checked _ (N.of_nat _) _ _ _) => apply reads_inner; [lia|lia|intros|intros] end
  | match goal with |- reads _ (bind (at_ _ _) _) => apply reads_at; intros end
  | match goal with |- reads _ (bind (slice _ _ _) _) => apply reads_slice; [try lia|intros|intros] end
  | match goal with |- reads _ (bind (be_at _ _ _) _) => apply reads_be_at; intros end
  | match goal with |- reads _ (bind (plmn_at _ _) _) => apply reads_plmn_at; intros end
  | match goal with |- reads _ (bind (lv_at _ _ _) _) => apply reads_lv_at; intros end
  | match goal with |- reads _ (if _ then _ else _) => apply reads_if; intros end
  | match goal with |- reads _ (let x := _ in _) => cbv zeta end
  | match goal with |- reads _ (Ok _) => apply reads_ok end
  | match goal with |- reads _ (Err _) => apply reads_err end ].
Ltac rd := repeat rd1.

Lemma labels_loop_fits f : forall v x, labels_loop (E:=GTPV2Error) f v = Ok x -> labels_fit v.
Proof.
  induction f as [|f IH]; intros [|n r] x; cbn [labels_loop]; intros H; try (exists []; reflexivity); [discriminate H|].
  destruct (Nat.leb_spec (N.to_nat n) (length r)) as [L|L]; [|discriminate H].
  destruct (labels_loop f (skipn (N.to_nat n) r)) eqn:E; try discriminate H. destruct (IH _ _ E) as (ws & Ew).
  exists (firstn (N.to_nat n) r :: ws). cbn [map concat]. rewrite <- Ew. unfold nlen. rewrite firstn_length_le by lia. rewrite N2Nat.id.
  cbn [app]. rewrite firstn_skipn. reflexivity.
Qed.
Lemma labels_decode_reads {A} v (k : list N -> res A) : (forall x, exists y, k x = Ok y) -> reads (labels_fit v) (bind (labels_decode (E:=GTPV2Error) v) k).
Proof.
  intros K. destruct (labels_decode_crash v) as [[H E]|[H R]].
  - rewrite E. apply reads_panic. exact H.
  - pose proof (errs_labels [] v) as Er. destruct (labels_decode v) as [x|e| |] eqn:E; try contradiction.
    + cbn [bind]. destruct (K x) as [y ->]. apply reads_ok. unfold labels_decode in E. destruct (labels_loop _ v) eqn:El; try discriminate E. eapply labels_loop_fits, El.
    + exfalso. exact (Er e eq_refl).
Qed.

(* --- the eleven kinds whose size is a sum of 16 bits, when they declare 65532 octets --- *)
Lemma to_nat_declared s : declared s = 65532 -> (65536 <= nlen s <-> (4 + N.to_nat (declared s) <= length s)%nat).
Proof. intros H. unfold nlen. lia. Qed.
Lemma Apn_reads s : declared s = 65532 -> reads (complete s /\ labels_fit (value_of s)) (Apn_unmarshal Release s).
Proof.
  intros D. pose proof (to_nat_declared s D) as Q. unfold complete, Apn_unmarshal. rd; [|lia|lia].
  destruct (labels_decode_reads (value_of s) (fun name => Ok (E:=GTPV2Error) (std 71 (declared s) (oct s 3) name))) as [[U K]|[U K]]; [eauto| |];
  replace (firstn (4 + N.to_nat (declared s) - 4) (skipn 4 s)) with (value_of s) by (unfold value_of; f_equal; lia); [left|right]; split; tauto.
Qed.
Lemma Fqdn_reads s : declared s = 65532 -> reads (complete s /\ labels_fit (value_of s)) (Fqdn_unmarshal Release s).
Proof.
  intros D. pose proof (to_nat_declared s D) as Q. unfold complete, Fqdn_unmarshal. rd; [|lia|lia].
  destruct (labels_decode_reads (value_of s) (fun name => Ok (E:=GTPV2Error) (std 136 (declared s) (oct s 3) name))) as [[U K]|[U K]]; [eauto| |];
  replace (firstn (4 + N.to_nat (declared s) - 4) (skipn 4 s)) with (value_of s) by (unfold value_of; f_equal; lia); [left|right]; split; tauto.
Qed.
Lemma Cause_reads s : declared s = 65532 -> forall x, Cause_unmarshal Release s <> Ok x.
Proof. intros D x. unfold Cause_unmarshal, need. destruct (Nat.leb_spec 5 (length s)); [|discriminate]. rewrite hdr4_eq by lia. rewrite D. discriminate. Qed.
Lemma Src_reads s : declared s = 65532 -> forall x, SourceRncPdcpContextInfo_unmarshal Release s <> Ok x.
Proof. intros D x. unfold SourceRncPdcpContextInfo_unmarshal, need. destruct (Nat.leb_spec 4 (length s)); [|discriminate]. rewrite hdr4_eq by lia. rewrite D. discriminate. Qed.
Lemma Ldn_reads s : declared s = 65532 -> reads (complete s) (Ldn_unmarshal Release s).
Proof. intros D. pose proof (to_nat_declared s D) as Q. unfold complete, Ldn_unmarshal. rd; lia. Qed.
Lemma Crm_reads s : declared s = 65532 -> reads ((5 <= length s)%nat /\ (oct s 4 < 2 -> complete s)) (CompleteRequestMessage_unmarshal Release s).
Proof. intros D. pose proof (to_nat_declared s D) as Q. unfold complete, CompleteRequestMessage_unmarshal. rd; eqs; lia. Qed.
Lemma Fc_reads s : declared s = 65532 -> reads ((5 <= length s)%nat /\ (oct s 4 <> 0 -> complete s)) (Fcontainer_unmarshal Release s).
Proof.
  intros D. pose proof (to_nat_declared s D) as Q. unfold complete, Fcontainer_unmarshal. rd; try lia. destruct (N.eqb_spec (oct s 4) 0) as [Z|Z]; [cbn [bind]; rd; lia|].
  repeat match goal with |- reads _ (bind (if ?c then _ else _) _) => destruct c end; rewrite bind_bind; rd; cbn [bind]; rd; try lia.
Qed.
Lemma Rip_reads s : declared s = 65532 -> reads (oct s 4 < 3 /\ (5 + 4 * N.to_nat (oct s 4) <= length s)%nat) (RemoteUeIpInformation_unmarshal Release s).
Proof. intros D. unfold RemoteUeIpInformation_unmarshal. rd; eqs; repeat match goal with H : (_ <=? _) = true |- _ => apply N.leb_le in H | H : (_ <=? _) = false |- _ => apply N.leb_gt in H end; lia. Qed.
Lemma bind_if {A B} (c : bool) (x y : res A) (k : A -> res B) : bind (if c then x else y) k = if c then bind x k else bind y k.
Proof. destruct c; reflexivity. Qed.
Lemma bind_need {A B} b n e (r : res A) (k : A -> res B) : bind (need b n e r) k = need b n e (bind r k).
Proof. unfold need. destruct (_ <=? _)%nat; reflexivity. Qed.
Lemma Trace_reads m s : reads (trace_readable s) (ExtendedTraceInformation_unmarshal m s).
Proof.
  unfold trace_readable. cbv zeta. replace (11 + lof s 10)%nat with (10 + 1 + lof s 10)%nat by lia. set (c1 := (10 + 1 + lof s 10)%nat). set (c2 := (c1 + 1 + lof s c1)%nat).
  replace (c2 + 2 + lof s (c2 + 1))%nat with (c2 + 1 + 1 + lof s (c2 + 1))%nat by lia. set (c3 := (c2 + 1 + 1 + lof s (c2 + 1))%nat).
  unfold ExtendedTraceInformation_unmarshal. apply reads_need; [intros|lia]. apply reads_hdr4; [lia|]. apply reads_be_at; [intros _ v|lia]. apply reads_plmn_at; [intros _ p|lia].
  apply reads_lv_at; [intros H1 x1|fold c1; lia]. fold c1 in H1 |- *. apply reads_lv_at; [intros H2 x2|fold c2; lia]. fold c2 in H2 |- *.
  apply reads_need; [intros|lia]. apply reads_at; [intros|lia]. apply reads_lv_at; [intros L3 x3|fold c3; lia]. fold c3 in L3 |- *. clearbody c3. clear - L3.
  apply reads_at; [intros|lia]. repeat rewrite bind_if; repeat rewrite bind_need; repeat rewrite bind_bind; cbn [bind]; rd; eqs; lia.
Qed.
Lemma Fteid_reads s : bytes s -> declared s = 65532 ->
  reads (64 <= oct s 4 /\ (9 + if_set (flag_at s 4 7) 4 + if_set (flag_at s 4 6) 16 <= length s)%nat) (Fteid_unmarshal Release s).
Proof.
  intros Hb D. pose proof (shiftr_7_bit _ (oct_lt s 4 Hb)) as [E1 E0].
  assert (G : (64 <=? oct s 4) = flag_at s 4 7 || flag_at s 4 6).
  { pose proof (oct_lt s 4 Hb) as L. unfold flag_at. set (x := oct s 4) in *. clearbody x. clear - L. cases_lt 256%nat L. }
  unfold Fteid_unmarshal. apply reads_need; [intros|unfold if_set; lia]. apply reads_hdr4; [lia|]. apply reads_wrapped; [exact D|].
  apply reads_at; [intros|unfold if_set; lia]. apply reads_be_at; [intros|unfold if_set; lia]. cbv zeta. rewrite E1, E0, !land_shift_1. unfold flag_at in *.
  destruct (N.testbit (oct s 4) 7), (N.testbit (oct s 4) 6); cbn [orb] in G; try apply N.leb_le in G; try apply N.leb_gt in G; cbn [negb andb N.eqb Pos.eqb if_set]; rd; lia.
Qed.
Lemma Fqcsid_reads s : bytes s -> declared s = 65532 -> reads (csids_readable s) (Fqcsid_unmarshal Release s).
Proof.
  intros Hb D. pose proof (oct_lt s 4 Hb) as Hx. unfold csids_readable, Fqcsid_unmarshal. apply reads_need; [intros|destruct (_ =? _); lia]. apply reads_hdr4; [lia|]. apply reads_wrapped; [exact D|].
  apply reads_at; [intros|destruct (_ =? _); lia]. rewrite N.shiftr_div_pow2. change (2 ^ 4) with 16. change 15 with (N.ones 4). rewrite N.land_ones. change (2 ^ 4) with 16.
  set (x := oct s 4) in *. clearbody x. assert (K : x / 16 < 3 <-> x < 48) by (pose proof (N.div_mod x 16); pose proof (N.mod_lt x 16); lia).
  assert (M : x mod 16 < 16) by (apply N.mod_lt; lia). set (k := x / 16) in *. set (n := x mod 16) in *. clearbody k n. clear - K M H H0. cbv zeta.
  destruct (N.eqb_spec k 0) as [->|]; [change (0 =? 1) with false; cbv iota; rd; lia|]. destruct (N.eqb_spec k 1) as [->|]; [rd; lia|]. destruct (N.eqb_spec k 2) as [->|]; [rd; lia|]. apply reads_err. lia.
Qed.

(* --- an element that is read and has size 0 --- *)
Definition sums16 (e : ie) : Prop :=
  match e with
  | IE_Apn _ | IE_Cause _ | IE_CompleteRequestMessage _ | IE_ExtendedTraceInformation _ | IE_Fcontainer _ | IE_Fqcsid _ | IE_Fqdn _ | IE_Fteid _
  | IE_Ldn _ | IE_RemoteUeIpInformation _ | IE_SrcRncPdcpCtxInfo _ => True
  | _ => False
  end.
Lemma len_u16_zero {A} (x : Tliv A) : ie_length x <= 65535 -> (len_u16 Release x = Ok 0%nat <-> ie_length x = 65532).
Proof.
  intros L. unfold len_u16, add16, ov. destruct (N.ltb_spec (ie_length x + 4) 65536) as [H|H]; cbn [bind].
  - split; [intros E; apply Ok_inj in E; lia|lia].
  - assert (E : (ie_length x + 4) mod 65536 = ie_length x + 4 - 65536) by (symmetry; apply N.mod_unique with (q := 1); lia). rewrite E.
    split; [intros K; apply Ok_inj in K; lia|intros ->; reflexivity].
Qed.
Lemma ie_len_zero e : ie_lenfield e <= 65535 -> ie_len Release e = Ok 0%nat -> sums16 e /\ ie_lenfield e = 65532.
Proof.
  intros L H. destruct e; cbn [ie_len ie_lenfield sums16] in *.
  all: first [ split; [exact I|apply (proj1 (len_u16_zero i L)); exact H]
             | exfalso; match type of H with ?f _ _ = _ => unfold f in H end; unfold len_usize, len_const in H; apply Ok_inj in H; lia
             | exfalso; match type of H with ?f _ _ = _ => unfold f in H end; destruct i; apply Ok_inj in H; lia
             | exfalso; match type of H with ?f _ _ = _ => unfold f in H end; apply Ok_inj in H; repeat match type of H with context [match ?x with _ => _ end] => destruct x end; lia
             ].
Qed.

Lemma declared_lt s : bytes s -> declared s <= 65535.
Proof.
  intros H. unfold declared, be16. pose proof (oct_lt s 1 H) as A. pose proof (oct_lt s 2 H) as B. unfold oct in *. lia.
Qed.
Lemma first_octet s t : s <> [] -> oct s 0 = t -> at_ s 0 = Ok (E:=GTPV2Error) t.
Proof. intros H <-. rewrite at_eq. destruct (Nat.ltb_spec 0 (length s)); [reflexivity|]. destruct s; [contradiction|cbn in *; lia]. Qed.
Lemma reads_some {A} P (r : res A) x : reads P r -> r = Ok x -> P.
Proof. intros [[H _]|[_ H]] E; [exact H|exfalso; exact (H x E)]. Qed.
Lemma lift_ok {A} (c : A -> ie) r e : lift c r = Ok e -> exists x, r = Ok x /\ e = c x.
Proof. destruct r; cbn; intros H; try discriminate H. apply Ok_inj in H. eauto. Qed.
Lemma stays_repeats dec s e : s <> [] -> bytes s -> decode_one dec Release s = Ok e -> ie_len Release e = Ok 0%nat -> repeats s.
Proof.
  intros Hn Hb E L. destruct (decode_one_post dec Release s e E) as [Hc Hl].
  destruct (ie_len_zero e) as [S D]; [rewrite Hl; apply declared_lt, Hb|exact L|]. rewrite Hl in D.
  assert (H169 : nth 0 s 0 <> 169). { intros T. rewrite disp_169 in E by (apply first_octet; assumption). apply lift_ok in E as (x & _ & ->). exact S. }
  specialize (Hc H169). fold (oct s 0) in Hc. split; [exact D|].
  destruct e; try contradiction S; clear S; cbn [has_code] in Hc.
  - rewrite disp_2 in E by (apply first_octet; assumption). apply lift_ok in E as (x & E & _). exfalso. exact (Cause_reads s D x E).
  - rewrite disp_71 in E by (apply first_octet; assumption). apply lift_ok in E as (x & E & _). rewrite Hc. eexists. split; [left; reflexivity|]. exact (reads_some _ _ x (Apn_reads s D) E).
  - rewrite disp_87 in E by (apply first_octet; assumption). apply lift_ok in E as (x & E & _). rewrite Hc. eexists. split; [do 2 right; left; reflexivity|]. exact (reads_some _ _ x (Fteid_reads s Hb D) E).
  - rewrite disp_116 in E by (apply first_octet; assumption). apply lift_ok in E as (x & E & _). rewrite Hc. eexists. split; [do 3 right; left; reflexivity|]. exact (reads_some _ _ x (Crm_reads s D) E).
  - rewrite disp_118 in E by (apply first_octet; assumption). apply lift_ok in E as (x & E & _). rewrite Hc. eexists. split; [do 4 right; left; reflexivity|]. exact (reads_some _ _ x (Fc_reads s D) E).
  - rewrite disp_125 in E by (apply first_octet; assumption). apply lift_ok in E as (x & E & _). exfalso. exact (Src_reads s D x E).
  - rewrite disp_132 in E by (apply first_octet; assumption). apply lift_ok in E as (x & E & _). rewrite Hc. eexists. split; [do 5 right; left; reflexivity|]. exact (reads_some _ _ x (Fqcsid_reads s Hb D) E).
  - rewrite disp_136 in E by (apply first_octet; assumption). apply lift_ok in E as (x & E & _). rewrite Hc. eexists. split; [do 1 right; left; reflexivity|]. exact (reads_some _ _ x (Fqdn_reads s D) E).
  - rewrite disp_151 in E by (apply first_octet; assumption). apply lift_ok in E as (x & E & _). rewrite Hc. eexists. split; [do 6 right; left; reflexivity|]. exact (reads_some _ _ x (Ldn_reads s D) E).
  - rewrite disp_193 in E by (apply first_octet; assumption). apply lift_ok in E as (x & E & _). rewrite Hc. eexists. split; [do 7 right; left; reflexivity|]. exact (reads_some _ _ x (Rip_reads s D) E).
  - rewrite disp_205 in E by (apply first_octet; assumption). apply lift_ok in E as (x & E & _). rewrite Hc. eexists. split; [do 8 right; left; reflexivity|]. exact (reads_some _ _ x (Trace_reads _ s) E).
Qed.
Lemma repeats_stays dec s : s <> [] -> bytes s -> repeats s -> exists e, decode_one dec Release s = Ok e /\ ie_len Release e = Ok 0%nat.
Proof.
  intros Hn Hb (D & P & HI & HP).
  assert (G : forall e, decode_one dec Release s = Ok e -> sums16 e -> ie_len Release e = Ok 0%nat).
  { intros e E S. destruct (decode_one_post dec Release s e E) as [_ Hl]. rewrite D in Hl. destruct e; try contradiction S; cbn [ie_len ie_lenfield] in *; (apply len_u16_zero; [rewrite Hl; discriminate|exact Hl]). }
  assert (K : forall A P' (r : res A) (c : A -> ie), reads P' r -> P' -> decode_one dec Release s = lift c r -> (forall x, sums16 (c x)) -> exists e, decode_one dec Release s = Ok e /\ ie_len Release e = Ok 0%nat).
  { intros A P' r c [[_ [x Ex]]|[N0 _]] Hp E Hs; [|contradiction]. exists (c x). assert (E' : decode_one dec Release s = Ok (c x)) by (rewrite E, Ex; reflexivity). split; [exact E'|]. apply G; [exact E'|apply Hs]. }
  cbn [In repeat_table] in HI.
  destruct HI as [HI|[HI|[HI|[HI|[HI|[HI|[HI|[HI|[HI|[]]]]]]]]]]; pose proof (f_equal fst HI) as T; pose proof (f_equal snd HI) as T'; cbn [fst snd] in T, T'; subst P; symmetry in T; clear HI.
  - eapply K; [apply (Apn_reads s D)|exact HP|apply disp_71, first_octet; assumption|intros; exact I].
  - eapply K; [apply (Fqdn_reads s D)|exact HP|apply disp_136, first_octet; assumption|intros; exact I].
  - eapply K; [apply (Fteid_reads s Hb D)|exact HP|apply disp_87, first_octet; assumption|intros; exact I].
  - eapply K; [apply (Crm_reads s D)|exact HP|apply disp_116, first_octet; assumption|intros; exact I].
  - eapply K; [apply (Fc_reads s D)|exact HP|apply disp_118, first_octet; assumption|intros; exact I].
  - eapply K; [apply (Fqcsid_reads s Hb D)|exact HP|apply disp_132, first_octet; assumption|intros; exact I].
  - eapply K; [apply (Ldn_reads s D)|exact HP|apply disp_151, first_octet; assumption|intros; exact I].
  - eapply K; [apply (Rip_reads s D)|exact HP|apply disp_193, first_octet; assumption|intros; exact I].
  - eapply K; [apply (Trace_reads Release s)|exact HP|apply disp_205, first_octet; assumption|intros; exact I].
Qed.

(* --- groups --- *)
Definition spins {A} (P : Prop) (r : res A) : Prop := (P /\ r = Diverge) \/ (~ P /\ halts r).
Lemma spins_no {A} (P : Prop) (r : res A) : ~ P -> halts r -> spins P r.
Proof. right. auto. Qed.
Lemma spins_ext {A} (P Q : Prop) (r : res A) : (P <-> Q) -> spins P r -> spins Q r.
Proof. unfold spins. tauto. Qed.
Lemma spins_bind {A B} P (r : res A) (k : A -> res B) : spins P r -> (forall x, halts (k x)) -> spins P (bind r k).
Proof. intros [[H ->]|[H R]] K; [left; auto|right]. split; [exact H|]. apply halts_bind; auto. Qed.
Lemma spins_group dec m b Q : b <> [] -> bytes b -> (fits b -> declared b <= 65531 -> spins Q (dec (value_of b))) ->
  spins (fits b /\ declared b <= 65531 /\ Q) (GroupedIe_unmarshal dec m b).
Proof.
  intros Hn Hb H. unfold GroupedIe_unmarshal, MIN_IE_SIZE. rewrite (first_octet b (oct b 0) Hn eq_refl). cbn [bind].
  destruct (Nat.leb_spec 4 (length b)) as [L|L]; [|apply spins_no; [unfold fits; lia|apply halts_err]]. rewrite hdr4_eq by exact L.
  pose proof (declared_lt b Hb) as Ld. unfold checked, check_tliv_ie_buffer.
  destruct (N.eqb_spec (declared b) 0) as [Z|Z]; [cbn [bind]; apply spins_no; [unfold fits; lia|apply halts_err]|].
  destruct (N.leb_spec (declared b) 65531) as [S|S].
  - rewrite add16_small by lia. cbn [bind]. destruct (Nat.leb_spec (N.to_nat (declared b + 4)) (length b)) as [F|F]; [|apply spins_no; [unfold fits; lia|apply halts_err]].
    assert (F' : fits b) by (unfold fits; lia). rewrite end16_ok by lia. cbn [bind]. replace (N.to_nat (declared b + 4)) with (4 + N.to_nat (declared b))%nat by lia. rewrite slice_value by lia. cbn [bind].
    apply (spins_ext Q); [tauto|]. apply spins_bind; [auto|]. intros. apply halts_ok.
  - apply spins_no; [lia|]. unfold end16, add16, ov. destruct (N.ltb_spec (declared b + 4) 65536); [lia|]. destruct m; cbn [bind]; [apply halts_panic|].
    assert (E : (declared b + 4) mod 65536 = declared b + 4 - 65536) by (symmetry; apply N.mod_unique with (q := 1); lia). rewrite E.
    destruct (_ <=? _)%nat; [|apply halts_err]. unfold slice. replace (4 <=? N.to_nat (declared b + 4 - 65536))%nat with false by (symmetry; apply Nat.leb_gt; lia).
    apply halts_panic.
Qed.
Lemma spins_decode_one m b Q : b <> [] -> bytes b ->
  (In (oct b 0) grouped_codes -> fits b -> declared b <= 65531 -> spins Q (decoder m (value_of b))) ->
  spins (In (oct b 0) grouped_codes /\ fits b /\ declared b <= 65531 /\ Q) (decode_one (decoder m) m b).
Proof.
  intros Hn Hb H. destruct (in_dec N.eq_dec (oct b 0) grouped_codes) as [IG|NG].
  2:{ apply spins_no; [tauto|]. apply halts_plain. exact NG. }
  specialize (H IG). pose proof (spins_group (decoder m) m b Q Hn Hb H) as C. apply (spins_ext (fits b /\ declared b <= 65531 /\ Q)); [tauto|].
  assert (LB : forall A B (c : B -> ie) (r : res A) (k : A -> res B), spins (fits b /\ declared b <= 65531 /\ Q) r -> (forall x, halts (k x)) -> spins (fits b /\ declared b <= 65531 /\ Q) (lift c (bind r k))).
  { intros A B c r k S K. unfold lift. apply spins_bind; [apply spins_bind; assumption|]. intros. apply halts_ok. }
  pose proof (fun t => first_octet b t Hn) as D. cbn [In grouped_codes] in IG.
  destruct IG as [IG|[IG|[IG|[IG|[IG|[IG|[IG|[IG|[IG|[]]]]]]]]]]; symmetry in IG; specialize (D _ IG);
    [rewrite disp_93 by exact D|rewrite disp_109 by exact D|rewrite disp_180 by exact D|rewrite disp_181 by exact D|rewrite disp_191 by exact D|rewrite disp_195 by exact D|rewrite disp_208 by exact D|rewrite disp_209 by exact D|rewrite disp_214 by exact D];
    match goal with |- spins _ (lift _ (?f _ _ _)) => unfold f end; (apply LB; [exact C|]); intros; cbv zeta;
    repeat match goal with |- halts (match ?x with _ => _ end) => destruct x end; first [apply halts_ok|apply halts_err].
Qed.

(* --- the loop --- *)
Lemma stuck m s e : s <> [] -> decode_one (decoder m) m s = Ok e -> ie_len m e = Ok 0%nat -> forall rounds, ie_loop (decode_one (decoder m) m) m rounds s = Diverge.
Proof.
  intros Hn E L rounds. induction rounds as [|k IH]; (destruct s as [|x s]; [contradiction|]); [reflexivity|].
  cbn [ie_loop]. rewrite E. cbn [bind]. rewrite L. cbn [bind skipn]. rewrite IH. reflexivity.
Qed.
Lemma comes_nil m s : ~ comes_to m [] s.
Proof.
  intros Hs. remember [] as e eqn:E. induction Hs as [b' N0|b' e' n s D Le Hs IHs|b' s G F L Hs IHs]; [contradiction| |].
  - apply IHs. rewrite E. apply skipn_nil.
  - rewrite E in G. cbn in G. lia.
Qed.
Theorem decoder_hang m b : bytes b -> spins (elements_hang m b) (decoder m b).
Proof.
  remember (length b) as k eqn:Hk. revert b Hk. induction k as [k IH] using lt_wf_ind. intros b -> Hby. rewrite decoder_eq.
  assert (L : forall fuel c, (length c <= fuel)%nat -> (length c <= length b)%nat -> bytes c -> spins (elements_hang m c) (ie_loop (decode_one (decoder m) m) m fuel c)).
  { induction fuel as [|f IHf]; intros [|x c] F Hc By; try (apply spins_no; [intros (_ & s & Hs & _); exact (comes_nil m s Hs)|apply halts_ok]); [cbn in F; lia|].
    assert (C : spins (In (oct (x :: c) 0) grouped_codes /\ fits (x :: c) /\ declared (x :: c) <= 65531 /\ elements_hang m (value_of (x :: c))) (decode_one (decoder m) m (x :: c))).
    { apply spins_decode_one; [discriminate|exact By|]. intros Hi Hf Hl. eapply IH; [|reflexivity|].
      - unfold value_of. rewrite firstn_length, skipn_length. cbn [length] in *. lia.
      - unfold value_of. apply bytes_firstn, bytes_skipn, By. }
    assert (IV : elements_hang m (x :: c) -> (m = Release /\ repeats (x :: c)) \/
      (In (oct (x :: c) 0) grouped_codes /\ fits (x :: c) /\ declared (x :: c) <= 65531 /\ elements_hang m (value_of (x :: c))) \/
      exists e n, decode_one (decoder m) m (x :: c) = Ok e /\ ie_len m e = Ok n /\ elements_hang m (skipn n (x :: c))).
    { intros (Hm & s & Hs & Hr). inversion Hs as [b' N0|b' e' n' s' D' L' Hs'|b' s' G' F' L' Hs']; subst.
      - left. auto.
      - right. right. exists e', n'. split; [exact D'|]. split; [exact L'|]. split; [reflexivity|]. exists s. auto.
      - right. left. do 3 (split; [assumption|]). split; [reflexivity|]. exists s. auto. }
    destruct C as [[P E]|[NP R]].
    - cbn [ie_loop]. rewrite E. left. split; [|reflexivity]. destruct P as (P1 & P2 & P3 & Hm & s & P4 & P5). split; [exact Hm|]. exists s. split; [apply come_inside; assumption|exact P5].
    - assert (RS : m = Release -> repeats (x :: c) -> exists e, decode_one (decoder m) m (x :: c) = Ok e /\ ie_len m e = Ok 0%nat).
      { intros -> Hr. apply repeats_stays; [discriminate|exact By|exact Hr]. }
      destruct (decode_one (decoder m) m (x :: c)) as [e|er| |] eqn:E; try (contradiction R; reflexivity).
      2,3: cbn [ie_loop]; rewrite E; cbn [bind]; apply spins_no; [|first [apply halts_err|apply halts_panic]]; intros K; destruct (IV K) as [[Hm Hr]|[Hg|(e' & n' & D' & _)]]; [destruct (RS Hm Hr) as (? & D' & _); discriminate D'|contradiction|discriminate D'].
      destruct (ie_len m e) as [n|er| |] eqn:EL; try (exfalso; exact (halts_ie_len m e EL)).
      2,3: cbn [ie_loop]; rewrite E; cbn [bind]; rewrite EL; cbn [bind]; apply spins_no; [|first [apply halts_err|apply halts_panic]]; intros K; destruct (IV K) as [[Hm Hr]|[Hg|(e' & n' & D' & L' & _)]];
        [destruct (RS Hm Hr) as (e' & D' & L'); apply Ok_inj in D'; subst; rewrite EL in L'; discriminate L'|contradiction|apply Ok_inj in D'; subst; rewrite EL in L'; discriminate L'].
      destruct n as [|n].
      + left. assert (Hm : m = Release) by (destruct m; [|reflexivity]; pose proof (ie_len_pos Debug e 0 (or_introl eq_refl) EL); lia). split; [|eapply stuck; [discriminate|exact E|exact EL]]. split; [exact Hm|]. exists (x :: c). split; [constructor; discriminate|]. subst m.
        eapply stays_repeats; [discriminate|exact By|exact E|exact EL].
      + cbn [ie_loop]. rewrite E. cbn [bind]. rewrite EL. cbn [bind]. apply spins_bind; [|intros; apply halts_ok].
        apply (spins_ext (elements_hang m (skipn (S n) (x :: c)))).
        * split; [intros (Hm & s & Hs & Hr); split; [exact Hm|]; exists s; split; [eapply come_next; eassumption|exact Hr]|]. intros K. destruct (IV K) as [[Hm Hr]|[Hg|(e' & n' & D' & L' & Kn)]].
          -- destruct (RS Hm Hr) as (e' & D' & L'). apply Ok_inj in D'. subst. rewrite EL in L'. apply Ok_inj in L'. discriminate L'.
          -- contradiction.
          -- apply Ok_inj in D'. subst. rewrite EL in L'. apply Ok_inj in L'. subst. exact Kn.
        * cbn [length] in *. apply IHf; [cbn [skipn]; rewrite skipn_length; lia|cbn [skipn]; rewrite skipn_length; lia|apply bytes_skipn, By]. }
  apply L; [lia|lia|exact Hby].
Qed.
Lemma spins_iff {A} (P : Prop) (r : res A) : spins P r -> (r = Diverge <-> P).
Proof. intros [[H ->]|[H R]]; [tauto|]. split; [intros E; exfalso; exact (R E)|contradiction]. Qed.
