(* V2CrashMm.v - the MM contexts and the SRVCC context against V2CrashSpec.v: the decoders panic exactly when the
   walk through the element overruns. *)
From Verif Require Import Base BaseFacts V2CrashSpec.
From Verif Require Export V2Crash.
Local Open Scope N_scope.

Definition agrees {A} (r : res (A * nat)) (l : look) : Prop :=
  match l with On c => exists x, r = Ok (x, c) | Refused => exists e, r = Err e | Overrun => r = Panic end.
Lemma crash_step {A B} (r : res (A * nat)) (k : A * nat -> res B) f rest s c :
  agrees r (f s c) -> (forall x c', f s c = On c' -> crash (walk rest s c' = Overrun) (k (x, c'))) -> crash (walk (f :: rest) s c = Overrun) (bind r k).
Proof.
  intros H K. cbn [walk]. destruct (f s c) as [c'| |]; cbn [agrees] in H.
  - destruct H as [x ->]. cbn [bind]. apply K. reflexivity.
  - destruct H as [e ->]. apply crash_err. discriminate.
  - rewrite H. apply crash_panic. reflexivity.
Qed.
Lemma crash_end {A} s c (x : A) : crash (walk [] s c = Overrun) (Ok x).
Proof. apply crash_ok. discriminate. Qed.
Lemma agrees_ext {A} (r : res (A * nat)) l l' : l = l' -> agrees r l -> agrees r l'.
Proof. intros ->. auto. Qed.

Lemma at_eq b c : at_ (E:=GTPV2Error) b c = if (c <? length b)%nat then Ok (oct b c) else Panic.
Proof.
  unfold at_. destruct (Nat.ltb_spec c (length b)) as [L|L].
  - rewrite (nth_error_nth' b 0 L). reflexivity.
  - rewrite (proj2 (nth_error_None b c) L). reflexivity.
Qed.
Lemma slice_eq b i j : (i <= j)%nat -> slice (E:=GTPV2Error) b i j = if (j <=? length b)%nat then Ok (firstn (j - i) (skipn i b)) else Panic.
Proof. intros H. unfold slice. destruct (Nat.leb_spec i j); [|lia]. reflexivity. Qed.
Lemma lv_eq b c e : lv_at b c e = if (c <? length b)%nat then if (c + 1 + lof b c <=? length b)%nat then Ok (firstn (lof b c) (skipn (c + 1) b), (c + 1 + lof b c)%nat) else Err e else Panic.
Proof.
  unfold lv_at. rewrite at_eq. destruct (Nat.ltb_spec c (length b)) as [L|L]; cbn [bind]; [|reflexivity]. fold (lof b c).
  destruct (Nat.leb_spec (c + 1 + lof b c) (length b)) as [K|K]; [|reflexivity]. rewrite slice_ok by lia. cbn [bind].
  replace (c + 1 + lof b c - (c + 1))%nat with (lof b c) by lia. reflexivity.
Qed.
Lemma be_eq b c n : be_at b c n = if (c + n <=? length b)%nat then Ok (be_list 0 (firstn n (skipn c b))) else Panic.
Proof. unfold be_at. rewrite slice_eq by lia. replace (c + n - c)%nat with n by lia. destruct (c + n <=? length b)%nat; reflexivity. Qed.
Ltac cases := repeat (match goal with
  | |- context [if (?x <? ?y)%nat then _ else _] => destruct (Nat.ltb_spec x y); try lia
  | |- context [if (?x <=? ?y)%nat then _ else _] => destruct (Nat.leb_spec x y); try lia
  end; cbn [bind agrees]).
Ltac fin := first [reflexivity | eexists; reflexivity | eexists; do 2 f_equal; lia | exfalso; lia ].

Lemma agrees_drx i b c : agrees (drx_at i b c) (only_if i (maybe 2) b c).
Proof. unfold drx_at, only_if, maybe. destruct i; cbn [andb]; [rewrite slice_eq by lia|]; cases; fin. Qed.
Lemma agrees_nh i b c : agrees (nh_at i b c) (only_if i (maybe 33) b c).
Proof. unfold nh_at, only_if, maybe. destruct i; cbn [andb]; [rewrite slice_eq by lia; rewrite at_eq|]; cases; fin. Qed.
Lemma agrees_ambr T i b c : agrees (ambr_at T i b c) (only_if i (insist 8) b c).
Proof.
  unfold ambr_at, only_if, insist. destruct i; [|fin]. unfold need, slice_from. cases; try fin.
  unfold AmbrMM_dec, need. rewrite !be_eq, skipn_length. cases. cbn [orelse bind]. fin.
Qed.
Lemma lof_0 b c : (0 <? oct b c) = negb (oct b c =? 0).
Proof. destruct (N.eqb_spec (oct b c) 0) as [->|E]; [reflexivity|]. cbn [negb]. apply N.ltb_lt. lia. Qed.
Ltac inside c b := destruct (Nat.ltb_spec c (length b)); cbn [bind agrees]; [|reflexivity].
Lemma agrees_cap T b c : agrees (cap_at T b c) (counted 2 b c).
Proof. unfold cap_at, counted. rewrite at_eq. inside c b. rewrite lof_0. destruct (oct b c =? 0); cbn [negb]; [fin|]. rewrite lv_eq. cases; fin. Qed.
Lemma agrees_optlv T b c : agrees (optlv_at T b c) (counted 1 b c).
Proof. unfold optlv_at, counted. rewrite at_eq. inside c b. rewrite lof_0. destruct (oct b c =? 0); cbn [negb]; [fin|]. rewrite lv_eq. cases; fin. Qed.
Lemma agrees_access b c : agrees (access_at b c) (trust b c).
Proof. unfold access_at, trust. rewrite at_eq. cases; fin. Qed.
Lemma agrees_higher b c : agrees (higher_at b c) (higher_flag b c).
Proof. unfold higher_at, higher_flag. rewrite at_eq. inside c b. fold (lof b c). rewrite at_eq. cases; try fin. Qed.
Lemma agrees_iov T i b c : agrees (iov_at T i b c) (iov_counter i b c).
Proof. unfold iov_at, iov_counter, trust. destruct i; cbn [andb]; [|fin]. rewrite at_eq. cases; fin. Qed.
Lemma agrees_ext_access T b c : agrees (ext_access_at T b c) (ext_restriction b c).
Proof.
  unfold ext_access_at, ext_restriction, need. rewrite !at_eq. inside c b. destruct (oct b c =? 1); cases; try fin. destruct (oct b c =? 0); fin.
Qed.
Lemma amm_agrees b c : agrees (amm_field b c) (counted 2 b c).
Proof.
  unfold amm_field, counted. rewrite at_eq. inside c b. fold (lof b c). destruct (N.eqb_spec (oct b c) 0) as [E|E].
  - unfold lof. rewrite E. cbn. fin.
  - unfold lof at 1. destruct (Nat.ltb_spec 0 (N.to_nat (oct b c))); [|lia]. rewrite slice_eq by lia. cases; fin.
Qed.
Lemma AdditionalMmContextForSrvcc_crash : forall m b, crash (srvcc_overruns b) (AdditionalMmContextForSrvcc_unmarshal m b).
Proof.
  intros m b. unfold AdditionalMmContextForSrvcc_unmarshal, srvcc_overruns. apply crash_need; [intros L|lia]. apply (and_crash _ _ _ L). apply crash_hdr4; [lia|].
  do 3 (apply crash_step; [apply amm_agrees|intros ? ? _; cbv beta iota]). apply crash_end.
Qed.
Lemma oct_skipn b c i : oct (skipn c b) i = oct b (c + i).
Proof.
  unfold oct. revert b. induction c as [|c IH]; intros b; [reflexivity|]. destruct b as [|x b]; [destruct (S c + i)%nat; destruct i; reflexivity|]. cbn [skipn Nat.add nth]. apply IH.
Qed.
Lemma oct_shiftr_7 b c : bytes b -> (N.shiftr (oct b c) 7 =? 0) = negb (128 <=? oct b c) /\ (N.shiftr (oct b c) 7 =? 1) = (128 <=? oct b c).
Proof. intros H. pose proof (oct_lt b c H) as L. set (x := oct b c) in *. clearbody x. split; cases_lt 256%nat L; reflexivity. Qed.
Lemma agrees_old T i b c : bytes b -> agrees (old_at T i b c) (only_if i old_context b c).
Proof.
  intros Hb. unfold old_at, only_if, old_context, insist. destruct i; [|fin]. unfold slice_from.
  assert (O : oct (skipn c b) 0 = oct b c) by (rewrite oct_skipn; f_equal; lia). destruct (oct_shiftr_7 b c Hb) as [E0 E1].
  destruct (Nat.leb_spec c (length b)) as [L|L]; cbn [bind].
  2:{ destruct (Nat.ltb_spec c (length b)); [lia|]. reflexivity. }
  unfold OldEpsSecurityContext_dec. rewrite !at_eq, skipn_length, O. unfold need.
  destruct (Nat.ltb_spec 0 (length b - c)), (Nat.ltb_spec c (length b)); try lia; cbn [bind orelse agrees]; [|reflexivity]. cbv zeta. rewrite E0, E1.
  destruct (N.leb_spec 128 (oct b c)); cbn [negb]; rewrite !slice_eq by lia; rewrite skipn_length; cases; cbn [orelse bind]; unfold OldEpsSecurityContext_size; cbn; fin.
Qed.

(* --- authentication vectors *)
Lemma agrees_quint b c : agrees (let? t := slice_from b c in let? x := AuthQuintuplet_dec t in Ok (x, (c + AuthQuintuplet_size x)%nat)) (walk quintuplet b c).
Proof.
  unfold quintuplet. cbn [walk]. unfold start, slice_from. destruct (Nat.leb_spec c (length b)) as [L|L]; cbn [bind]; [|reflexivity].
  unfold AuthQuintuplet_dec, need, insist, string.
  assert (Lt : length (skipn c b) = (length b - c)%nat) by apply skipn_length.
  assert (LF : forall i, lof (skipn c b) i = lof b (c + i)) by (intros; unfold lof; rewrite oct_skipn; reflexivity).
  set (t := skipn c b) in *. clearbody t.
  destruct (Nat.leb_spec 16 (length t)), (Nat.leb_spec (c + 16) (length b)); try lia; cbn [bind agrees]; [|fin].
  rewrite slice_ok by lia. cbn [bind]. rewrite lv_eq, LF, Lt.
  destruct (Nat.ltb_spec 16 (length b - c)), (Nat.ltb_spec (c + 16) (length b)); try lia; cbn [bind agrees]; [|fin].
  set (l1 := lof b (c + 16)) in *.
  destruct (Nat.leb_spec (16 + 1 + l1) (length b - c)), (Nat.leb_spec (c + 16 + 1 + l1) (length b)); try lia; cbn [bind agrees]; [|fin].
  destruct (Nat.leb_spec (16 + 1 + l1 + 32) (length b - c)), (Nat.leb_spec (c + 16 + 1 + l1 + 32) (length b)); try lia; cbn [bind agrees]; [|fin].
  rewrite !slice_ok by lia. cbn [bind]. rewrite lv_eq, LF, Lt. replace (c + (16 + 1 + l1 + 32))%nat with (c + 16 + 1 + l1 + 32)%nat by lia.
  set (l2 := lof b (c + 16 + 1 + l1 + 32)) in *.
  destruct (Nat.ltb_spec (16 + 1 + l1 + 32) (length b - c)), (Nat.ltb_spec (c + 16 + 1 + l1 + 32) (length b)); try lia; cbn [bind agrees]; [|fin].
  destruct (Nat.leb_spec (16 + 1 + l1 + 32 + 1 + l2) (length b - c)), (Nat.leb_spec (c + 16 + 1 + l1 + 32 + 1 + l2) (length b)); try lia; cbn [bind agrees]; [|fin].
  eexists. do 2 f_equal. unfold AuthQuintuplet_size. cbn [aq_xres aq_autn]. rewrite !firstn_length, !skipn_length, Lt. lia.
Qed.
Lemma agrees_quad b c : agrees (let? t := slice_from b c in let? x := AuthQuadruplet_dec t in Ok (x, (c + AuthQuadruplet_size x)%nat)) (walk quadruplet b c).
Proof.
  unfold quadruplet. cbn [walk]. unfold start, slice_from. destruct (Nat.leb_spec c (length b)) as [L|L]; cbn [bind]; [|reflexivity].
  unfold AuthQuadruplet_dec, need, insist, string.
  assert (Lt : length (skipn c b) = (length b - c)%nat) by apply skipn_length.
  assert (LF : forall i, lof (skipn c b) i = lof b (c + i)) by (intros; unfold lof; rewrite oct_skipn; reflexivity).
  set (t := skipn c b) in *. clearbody t.
  destruct (Nat.leb_spec 17 (length t)), (Nat.leb_spec (c + 17) (length b)); try lia; cbn [bind agrees]; [|fin].
  rewrite slice_ok by lia. cbn [bind]. rewrite lv_eq, LF, Lt.
  destruct (Nat.ltb_spec 16 (length b - c)), (Nat.ltb_spec (c + 16) (length b)); try lia; cbn [bind agrees].
  set (l1 := lof b (c + 16)) in *.
  destruct (Nat.leb_spec (16 + 1 + l1) (length b - c)), (Nat.leb_spec (c + 16 + 1 + l1) (length b)); try lia; cbn [bind agrees]; [|fin].
  rewrite lv_eq, LF, Lt. replace (c + (16 + 1 + l1))%nat with (c + 16 + 1 + l1)%nat by lia.
  set (l2 := lof b (c + 16 + 1 + l1)) in *.
  destruct (Nat.ltb_spec (16 + 1 + l1) (length b - c)), (Nat.ltb_spec (c + 16 + 1 + l1) (length b)); try lia; cbn [bind agrees]; [|fin].
  destruct (Nat.leb_spec (16 + 1 + l1 + 1 + l2) (length b - c)), (Nat.leb_spec (c + 16 + 1 + l1 + 1 + l2) (length b)); try lia; cbn [bind agrees]; [|fin].
  destruct (Nat.leb_spec (16 + 1 + l1 + 1 + l2 + 32) (length b - c)), (Nat.leb_spec (c + 16 + 1 + l1 + 1 + l2 + 32) (length b)); try lia; cbn [bind agrees]; [|fin].
  rewrite !slice_ok by lia. cbn [bind].
  eexists. do 2 f_equal. unfold AuthQuadruplet_size. cbn [ad_xres ad_autn]. rewrite !firstn_length, !skipn_length, Lt. lia.
Qed.
Lemma walk_app l1 l2 s c : walk (l1 ++ l2) s c = match walk l1 s c with On c' => walk l2 s c' | x => x end.
Proof. revert c. induction l1 as [|f l1 IH]; intros c; [reflexivity|]. cbn [app walk]. destruct (f s c); auto. Qed.
Lemma agrees_auth {A} (dec : list N -> res A) size v T n b c :
  (forall c, agrees (let? t := slice_from b c in let? x := dec t in Ok (x, (c + size x)%nat)) (walk v b c)) ->
  agrees (auth_at dec size T n b c) (several n v b c).
Proof.
  intros H. unfold auth_at, several.
  assert (G : forall k c, agrees (many dec size k b c) (walk (concat (repeat v k)) b c)).
  { induction k as [|k IH]; intros d; [cbn; fin|]. cbn [repeat concat many]. rewrite walk_app. specialize (H d).
    destruct (slice_from b d) as [t|e| |]; cbn [bind] in *; [|destruct (walk v b d); cbn [agrees] in *; try discriminate; try (destruct H as [? H]; discriminate)..].
    - destruct (dec t) as [x|e| |]; cbn [bind] in *; [|destruct (walk v b d); cbn [agrees] in *; try discriminate; try (destruct H as [? H]; discriminate); fin..].
      destruct (walk v b d) as [d'| |]; cbn [agrees] in H; [|destruct H as [? H]; discriminate H|discriminate H].
      destruct H as [y E]. injection E as _ <-. specialize (IH (d + size x)%nat). destruct (walk (concat (repeat v k)) b (d + size x)); cbn [agrees] in *.
      + destruct IH as [l ->]. fin.
      + destruct IH as [e ->]. fin.
      + rewrite IH. fin.
    - fin.
    - fin. }
  destruct (N.eqb_spec n 0) as [->|E]; [cbn; fin|]. destruct (n <=? 5); [|fin]. specialize (G (N.to_nat n) c).
  destruct (walk (concat (repeat v (N.to_nat n))) b c); cbn [agrees] in *.
  - destruct G as [x ->]. cbn. fin.
  - destruct G as [e ->]. cbn. fin.
  - rewrite G. fin.
Qed.
Lemma agrees_trips n b c : (c <= length b)%nat -> agrees (trips_at n b c) (triplets n b c).
Proof.
  intros Hc. unfold trips_at, triplets, insist. destruct (N.eqb_spec n 0) as [->|E].
  - cbn [N.leb N.compare]. rewrite Nat.mul_0_r. destruct (Nat.leb_spec (c + 0) (length b)); [|lia]. cbn [agrees]. fin.
  - destruct (N.leb_spec n 5) as [L|L]; [|fin]. unfold need. rewrite (Nat.mul_comm 28).
    destruct (Nat.leb_spec (c + N.to_nat n * 28) (length b)) as [K|K]; [|fin]. unfold auth_at. destruct (N.eqb_spec n 0); [lia|]. destruct (N.leb_spec n 5); [|lia].
    assert (G : forall k c, (c + k * 28 <= length b)%nat -> exists l, many AuthTriplet_dec (fun _ => 28%nat) k b c = Ok (l, (c + k * 28)%nat)).
    { induction k as [|k IH]; intros d Hd; [exists []; cbn; do 2 f_equal; lia|]. cbn [many]. unfold slice_from. destruct (Nat.leb_spec d (length b)); [|lia]. cbn [bind].
      assert (D : exists x, AuthTriplet_dec (skipn d b) = Ok x) by (unfold AuthTriplet_dec, need; rewrite !slice_eq by lia; rewrite skipn_length; cases; eexists; reflexivity).
      destruct D as [x ->]. cbn [bind]. destruct (IH (d + 28)%nat ltac:(lia)) as [l El]. rewrite El. cbn [bind]. eexists. do 2 f_equal. lia. }
    destruct (G _ _ K) as [l ->]. cbn [orelse bind agrees]. fin.
Qed.
(* --- APN rate control *)
Lemma agrees_rate b c : agrees (let? t := slice_from b c in let? x := ApnRateControlStatusMM_dec t in Ok (x, (c + ApnRateControlStatusMM_size x)%nat)) (rate_status b c).
Proof.
  unfold rate_status, slice_from. destruct (Nat.leb_spec c (length b)) as [L|L], (Nat.ltb_spec (length b) c) as [K|K]; try lia; cbn [bind]; [|reflexivity].
  assert (Lt : length (skipn c b) = (length b - c)%nat) by apply skipn_length. cbv zeta. unfold ApnRateControlStatusMM_dec, need. rewrite Lt.
  set (n := (length b - c)%nat) in *.
  assert (U : forall i, (i + 2 <= n)%nat -> be_at (skipn c b) i 2 = Ok (256 * oct b (c + i) + oct b (S (c + i)))).
  { intros i Hi. rewrite be_eq, Lt. destruct (Nat.leb_spec (i + 2) n); [|lia]. f_equal. replace (S (c + i)) with (c + S i)%nat by lia. rewrite <- !oct_skipn. rewrite skipn2.
    replace (oct (skipn c b) (S i)) with (oct (skipn (c + i) b) 1) by (rewrite !oct_skipn; f_equal; lia).
    replace (oct (skipn c b) i) with (oct (skipn (c + i) b) 0) by (rewrite !oct_skipn; f_equal; lia).
    replace (i + c)%nat with (c + i)%nat by lia.
    assert (Lu : (2 <= length (skipn (c + i) b))%nat) by (rewrite skipn_length; unfold n in *; lia). set (u := skipn (c + i) b) in *. clearbody u.
    destruct u as [|x [|y u]]; try (cbn in Lu; lia). unfold be_list, oct. cbn [firstn nth fold_left]. lia. }
  destruct (Nat.ltb_spec n 2) as [L2|L2], (Nat.leb_spec 2 n); try lia; cbn [orb agrees]; [fin|].
  pose proof (U 0%nat ltac:(lia)) as U0. rewrite Nat.add_0_r in U0. rewrite U0. cbn [bind]. fold (V2CrashSpec.u16 b c).
  destruct (Nat.ltb_spec n (V2CrashSpec.u16 b c + 2)), (Nat.leb_spec (V2CrashSpec.u16 b c + 2) n); try lia; cbn [agrees]; [fin|].
  destruct (Nat.ltb_spec n 4) as [L4|L4].
  { rewrite be_eq, Lt. destruct (Nat.leb_spec (2 + 2) n); [lia|]. reflexivity. }
  rewrite (U 2%nat ltac:(lia)). cbn [bind]. fold (V2CrashSpec.u16 b (c + 2)). set (k := V2CrashSpec.u16 b (c + 2)). rewrite !slice_eq by lia. rewrite !be_eq, Lt.
  destruct (Nat.ltb_spec n (k + 24)) as [Lk|Lk]; cases; try fin.
  eexists. apply f_equal, f_equal2; [reflexivity|]. unfold ApnRateControlStatusMM_size. cbn [rm_apn]. rewrite skipn2. replace (4 + c)%nat with (c + 4)%nat by lia. replace (4 + k - 4)%nat with k by lia. lia.
Qed.

Lemma rate_status_on b c c' : rate_status b c = On c' -> (c <= length b /\ c + 24 <= c')%nat.
Proof.
  unfold rate_status. destruct (Nat.ltb_spec (length b) c); [discriminate|]. cbv zeta. destruct (_ || _); [discriminate|]. destruct (_ <? 4)%nat; [discriminate|].
  destruct (_ <? _)%nat; [discriminate|]. intros E. injection E as <-. lia.
Qed.
Lemma agrees_rate_run b : forall f c, (1 <= f)%nat -> ((c <= length b)%nat -> (length b + 1 < c + f)%nat) -> agrees (rates_loop f b c) (rate_run f b c).
Proof.
  induction f as [|f IH]; intros c H1 H2; [lia|]. cbn [rates_loop rate_run]. pose proof (agrees_rate b c) as A. pose proof (rate_status_on b c) as O.
  unfold slice_from in *. destruct (c <=? length b)%nat; cbn [bind] in *; [set (t := skipn c b) in *|].
  - destruct (ApnRateControlStatusMM_dec t) as [x|e| |]; cbn [bind] in A.
    + destruct (rate_status b c) as [c'| |]; cbn [agrees] in A; [|destruct A as [? A]; discriminate A|discriminate A]. destruct A as [y E]. injection E as _ E. rewrite E. destruct (O c' eq_refl) as [O1 O2].
      specialize (IH c' ltac:(lia) ltac:(lia)). destruct (rate_run f b c'); cbn [agrees] in *; [destruct IH as [l ->]; fin|destruct IH as [e ->]; fin|rewrite IH; fin].
    + destruct (rate_status b c) as [c'| |]; cbn [agrees] in *; [destruct A as [? A]; discriminate A|fin|discriminate A].
    + destruct (rate_status b c) as [c'| |]; cbn [agrees] in *; [destruct A as [? A]; discriminate A|destruct A as [? A]; discriminate A|reflexivity].
    + destruct (rate_status b c) as [c'| |]; cbn [agrees] in *; [destruct A as [? A]; discriminate A|destruct A as [? A]; discriminate A|discriminate A].
  - destruct (rate_status b c) as [c'| |]; cbn [agrees] in *; [destruct A as [? A]; discriminate A|destruct A as [? A]; discriminate A|reflexivity].
Qed.
Lemma agrees_rates T b c : agrees (rates_at T b c) (rate_statuses b c).
Proof.
  unfold rates_at, rate_statuses. rewrite at_eq. inside c b. destruct (oct b c =? 0); [fin|]. fold (lof b c). unfold need. change (S c + lof b c)%nat with (S (c + lof b c)).
  replace (c + 1 + lof b c)%nat with (S (c + lof b c)) by lia. destruct (Nat.leb_spec (S (c + lof b c)) (length b)) as [L|L]; [|fin].
  replace (c + 1)%nat with (S c) by lia. pose proof (agrees_rate_run b (S (length b)) (S c) ltac:(lia) ltac:(lia)) as A.
  destruct (rate_run (S (length b)) b (S c)); cbn [agrees] in *; [destruct A as [l ->]; fin|destruct A as [e ->]; fin|rewrite A; fin].
Qed.
Lemma crash_ensct {A} b c (k : option N -> A) : crash (walk [last_flags] b c = Overrun) (let? e := ensct_at b c in Ok (k e)).
Proof.
  unfold ensct_at. cbn [walk]. unfold last_flags, trust. destruct (Nat.leb_spec c (length b)) as [L|L]; cbn [bind]; [|apply crash_ok; discriminate].
  rewrite at_eq. destruct (Nat.ltb_spec c (length b)); cbn [bind]; [apply crash_ok; discriminate|apply crash_panic; reflexivity].
Qed.

(* --- the counts and flags *)
Lemma count_first b : N.shiftr (oct b 5) 5 = first_count b.
Proof. unfold first_count. rewrite N.shiftr_div_pow2. reflexivity. Qed.
Lemma count_second b : N.shiftr (N.land (oct b 5) 28) 2 = second_count b.
Proof.
  unfold second_count. rewrite N.shiftr_land. change (N.shiftr 28 2) with (N.ones 3). rewrite N.land_ones, N.shiftr_div_pow2. reflexivity.
Qed.
Lemma bit_7 b c : bytes b -> (N.shiftr (oct b c) 7 =? 1) = flag_at b c 7.
Proof. intros H. exact (proj1 (shiftr_7_bit _ (oct_lt b c H))). Qed.
Ltac mm_head := repeat match goal with
  | |- crash _ (bind (at_ _ _) _) => apply crash_at; [intros _|lia]
  | |- crash _ (bind (slice _ _ _) _) => apply crash_slice; [lia|intros _|lia]
  | |- crash _ (bind (be_at _ _ _) _) => apply crash_be_at; [intros _ ?|lia] end.
Ltac mm_one := apply crash_step; [first [apply agrees_drx|apply agrees_nh|apply agrees_ambr|apply agrees_cap|apply agrees_optlv|apply agrees_access|apply agrees_higher
   |apply agrees_iov|apply agrees_ext_access|apply agrees_rates|apply agrees_old; assumption|apply agrees_trips; lia|apply agrees_auth; apply agrees_quint|apply agrees_auth; apply agrees_quad]|intros ? ? _; cbv beta iota].
Ltac mm_flags := unfold flag_at; repeat first [rewrite <- bit_1|rewrite <- bit_2|rewrite <- bit_8|rewrite <- bit_16].
Lemma MmGsmT_crash : forall m b, bytes b -> crash (gsm_triplets_overruns b) (MmContextGsmKeyTriplets_unmarshal m b).
Proof.
  intros m b Hb. unfold gsm_triplets_overruns, MmContextGsmKeyTriplets_unmarshal, mm_tail, mm_ambrs, mm_drx. cbn [app].
  apply crash_need; [intros L|lia]; apply (and_crash _ _ _ L); (apply crash_hdr4; [lia|]). rewrite <- ?count_first, <- ?count_second. mm_flags.
  mm_head. repeat mm_one. apply crash_end.
Qed.
Lemma MmGsmCq_crash : forall m b, bytes b -> crash (gsm_quintuplets_overruns b) (MmContextGsmKeyCipherQuintuplets_unmarshal m b).
Proof.
  intros m b Hb. unfold gsm_quintuplets_overruns, MmContextGsmKeyCipherQuintuplets_unmarshal, mm_tail, mm_ambrs, mm_drx. cbn [app].
  apply crash_need; [intros L|lia]; apply (and_crash _ _ _ L); (apply crash_hdr4; [lia|]). rewrite <- ?count_first, <- ?count_second. mm_flags.
  mm_head. repeat mm_one. apply crash_end.
Qed.
Lemma MmUmtsCq_crash : forall m b, bytes b -> crash (umts_cipher_overruns b) (MmContextUmtsKeyCipherQuintuplets_unmarshal m b).
Proof.
  intros m b Hb. unfold umts_cipher_overruns, MmContextUmtsKeyCipherQuintuplets_unmarshal, mm_tail, mm_ambrs, mm_drx. cbn [app].
  apply crash_need; [intros L|lia]; apply (and_crash _ _ _ L); (apply crash_hdr4; [lia|]). rewrite <- ?count_first, <- ?count_second. mm_flags.
  mm_head. repeat mm_one. apply crash_end.
Qed.
Lemma MmUmtsQ_crash : forall m b, bytes b -> crash (umts_quintuplets_overruns b) (MmContextUmtsKeyQuintuplets_unmarshal m b).
Proof.
  intros m b Hb. unfold umts_quintuplets_overruns, MmContextUmtsKeyQuintuplets_unmarshal, mm_tail, mm_ambrs, mm_drx. cbn [app].
  apply crash_need; [intros L|lia]; apply (and_crash _ _ _ L); (apply crash_hdr4; [lia|]). rewrite <- ?count_first, <- ?count_second. mm_flags.
  mm_head. repeat mm_one. apply crash_end.
Qed.
Lemma MmUmtsQq_crash : forall m b, bytes b -> crash (umts_quadruplets_overruns b) (MmContextUmtsKeyQuadrupletsQuintuplets_unmarshal m b).
Proof.
  intros m b Hb. unfold umts_quadruplets_overruns, MmContextUmtsKeyQuadrupletsQuintuplets_unmarshal, mm_tail, mm_ambrs, mm_drx. cbn [app].
  apply crash_need; [intros L|lia]; apply (and_crash _ _ _ L); (apply crash_hdr4; [lia|]). rewrite <- ?count_first, <- ?count_second. mm_flags.
  mm_head. repeat mm_one. apply crash_end.
Qed.
Lemma MmEps_crash : forall m b, bytes b -> crash (eps_overruns b) (MmContextEpsSecurityContextQuadruplets_unmarshal m b).
Proof.
  intros m b Hb. unfold eps_overruns, MmContextEpsSecurityContextQuadruplets_unmarshal, mm_tail, mm_ambrs, mm_drx. cbn [app].
  apply crash_need; [intros L|lia]; apply (and_crash _ _ _ L); (apply crash_hdr4; [lia|]). rewrite <- ?count_first, <- ?count_second, <- ?(bit_7 b 6 Hb). mm_flags.
  mm_head. repeat mm_one. match goal with x : (_ * _)%type |- _ => destruct x end. repeat mm_one. match goal with |- crash _ (bind _ ?k) => idtac end. refine (crash_ensct _ _ _).
Qed.
