(* V2ReadFactsB.v - the element decoders of V2Common.v and V2IeB.v against the grammar of V2ReadSpec.v *)
From Verif Require Import BaseFacts Digits Labels V2ReadSpec Octets V2ReadFacts.
Local Open Scope N_scope.

(* the decoder of a part, its size, and the reader *)
Definition parses {A} (dec : list N -> res A) (size : A -> nat) (p : reader A) : Prop :=
  forall s, bytes s -> match p s with
                       | Some (x, r) => dec s = Ok x /\ r = skipn (size x) s /\ (size x <= length s)%nat
                       | None => got (dec s) = None
                       end.
Lemma plmn_at0 a b c r : plmn_at (a :: b :: c :: r) 0 = Ok (plmn_of a b c).
Proof. unfold plmn_at, slice. cbn [Nat.leb Nat.add length andb Nat.sub firstn skipn bind]. rewrite plmn_decoded. cbn [bind]. destruct (plmn_of a b c); reflexivity. Qed.
Lemma plmn_at_skip s k a b c r : skipn k s = a :: b :: c :: r -> plmn_at s k = Ok (plmn_of a b c).
Proof.
  intros H. unfold plmn_at. assert (length (skipn k s) = S (S (S (length r)))) as E by (rewrite H; reflexivity). rewrite skipn_length in E.
  rewrite slice_ok by lia. replace (k + 3 - k)%nat with 3%nat by lia. rewrite H. cbn [firstn bind]. rewrite plmn_decoded. cbn [bind]. destruct (plmn_of a b c); reflexivity.
Qed.
Ltac part n s := intros s Hb; fixd n s; rewrite ?plmn_at0;
  cbv beta iota zeta delta [plmn_ Cgi_ Sai_ Rai_ Tai_ Ecgi_ Lai_ Macro_ ExtMacro_ Triplet_ AmbrMm_ Cell_ andthen take1 take number yield length Nat.leb firstn skipn];
  bys Hb.
Ltac part_end := split; [|split; [reflexivity|cbn [length]; lia]].
Lemma Cgi_parses : parses Cgi_dec (fun _ => 7%nat) Cgi_.
Proof. part 7%nat s. part_end. unfold Cgi_dec. rewrite plmn_at0. run. arith. reflexivity. Qed.
Lemma Sai_parses : parses Sai_dec (fun _ => 7%nat) Sai_.
Proof. part 7%nat s. part_end. unfold Sai_dec. rewrite plmn_at0. run. arith. reflexivity. Qed.
Lemma Rai_parses : parses Rai_dec (fun _ => 6%nat) Rai_.
Proof. part 6%nat s. part_end. unfold Rai_dec. rewrite plmn_at0. run. arith. reflexivity. Qed.
Lemma Tai_parses : parses Tai_dec (fun _ => 5%nat) Tai_.
Proof. part 5%nat s. part_end. unfold Tai_dec. rewrite plmn_at0. run. arith. reflexivity. Qed.
Lemma Ecgi_parses : parses Ecgi_dec (fun _ => 7%nat) Ecgi_.
Proof. part 7%nat s. part_end. unfold Ecgi_dec. rewrite plmn_at0. run. arith. reflexivity. Qed.
Lemma Lai_parses : parses Lai_dec (fun _ => 5%nat) Lai_.
Proof. part 5%nat s. part_end. unfold Lai_dec. rewrite plmn_at0. run. arith. reflexivity. Qed.
Lemma Macro_parses : parses MacroEnbId_dec (fun _ => 6%nat) Macro_.
Proof. part 6%nat s. part_end. unfold MacroEnbId_dec. rewrite plmn_at0. run. arith. reflexivity. Qed.
Lemma top_bit x : byte x -> x / 128 = if bit_at x 7 then 1 else 0.
Proof. intros H. per_octet x. Qed.
Lemma ExtMacro_parses : parses ExtMacroEnbId_dec (fun _ => 6%nat) ExtMacro_.
Proof.
  part 6%nat s. part_end. unfold ExtMacroEnbId_dec. rewrite plmn_at0. run. arith. rewrite top_bit by assumption.
  destruct (bit_at x2 7).
  - change (1 =? 0) with false. change (1 =? 1) with true. cbv iota. do 2 f_equal. unfold base256, be24. cbn [fold_left]. lia.
  - change (0 =? 0) with true. cbv iota. do 2 f_equal. unfold base256, be24. cbn [fold_left]. lia.
Qed.

Lemma orelse_parses {A} (dec : list N -> res A) size p e : parses dec size p -> parses (fun t => orelse (dec t) e) size p.
Proof.
  intros H s Hs. specialize (H s Hs). destruct (p s) as [[x r]|].
  - destruct H as (-> & H). split; [reflexivity|exact H].
  - unfold orelse. destruct (dec s); try discriminate H; reflexivity.
Qed.
Lemma bytes_skipn n s : bytes s -> bytes (skipn n s).
Proof. intros H. apply Forall_forall. intros x Hx. unfold bytes in H. rewrite Forall_forall in H. apply H. rewrite <- (firstn_skipn n s). apply in_or_app. right. exact Hx. Qed.
Lemma many_times {A} (dec : list N -> res A) size p : parses dec size p -> forall n s c, bytes s -> (c <= length s)%nat ->
  sim s (many dec size n s c) (times n p (skipn c s)) /\ (forall l c', many dec size n s c = Ok (l, c') -> (c' <= length s)%nat).
Proof.
  intros Hp. induction n as [|n IH]; intros s c Hs Hc.
  - split; [split; reflexivity|]. cbn [many]. intros l c' H. injection H as _ <-. exact Hc.
  - cbn [many times]. rewrite slice_from_ok by exact Hc. cbn [bind]. specialize (Hp (skipn c s) (bytes_skipn _ _ Hs)).
    unfold andthen at 1. destruct (p (skipn c s)) as [[x r]|].
    + destruct Hp as (-> & -> & Hl). rewrite skipn_length in Hl. cbn [bind]. rewrite skipn_skipn'.
      destruct (IH s (c + size x)%nat Hs ltac:(lia)) as [H1 H2]. split.
      * apply step_c' with (k := fun '(xs, c') => Ok (x :: xs, c')); [exact H1|]. intros l c' _. split; reflexivity.
      * intros l c' H. destruct (many dec size n s (c + size x)) as [[l1 c1]| | |]; try discriminate H. cbn [bind] in H. injection H as _ <-. eapply H2. reflexivity.
    + destruct (dec (skipn c s)); try discriminate Hp; (split; [exact I|discriminate]).
Qed.
Lemma times_length {A} (p : reader A) k : (forall s x r, p s = Some (x, r) -> length s = (k + length r)%nat) ->
  forall n s l r, times n p s = Some (l, r) -> length s = (n * k + length r)%nat.
Proof.
  intros Hp. induction n as [|n IH]; intros s l r H.
  - cbn in H. injection H as _ <-. reflexivity.
  - cbn [times] in H. unfold andthen in H. destruct (p s) as [[x r1]|] eqn:E; [|discriminate]. apply Hp in E.
    destruct (times n p r1) as [[l2 r2]|] eqn:E2; [|discriminate]. apply IH in E2. injection H as _ <-. lia.
Qed.
Lemma nothing_fits {A} len (x : option A) : None = if fits len [] then x else None.
Proof. destruct (fits len []) eqn:Hf; [apply fits_inv in Hf; cbn in Hf; lia|reflexivity]. Qed.
Lemma number2_chunks n s : bytes s -> times n (number 2) s = (if (2 * n <=? length s)%nat then Some (chunks16 (firstn (2 * n) s), skipn (2 * n) s) else None).
Proof.
  revert s. induction n as [|n IH]; intros s Hs; [reflexivity|].
  replace (2 * S n)%nat with (S (S (2 * n))) by lia. destruct s as [|x [|y s]]; try reflexivity. cbn [times]. unfold number, andthen at 1 2, take at 1.
  cbn [length Nat.leb firstn skipn yield]. bys Hs. unfold andthen. rewrite IH by exact Hs. destruct (Nat.leb_spec (2 * n) (length s)); [|reflexivity].
  cbn [chunks16 yield]. rewrite be16_eq. replace (base256 [x; y]) with (256 * x + y) by (unfold base256; cbn [fold_left]; lia). reflexivity.
Qed.

Lemma CompleteRequestMessage_eq s : bytes s -> got (CompleteRequestMessage_unmarshal Debug s) = CompleteRequestMessage_reads s.
Proof. intros Hb. closes s. destruct s as [|x s]; [apply nothing_fits|]. cbn [length Nat.leb].
  destruct (fits _ _) eqn:Hf; [|reflexivity]. pose proof (fits_inv _ _ Hf). cbn [length] in *. rewrite ?slice5, ?slice4 by (cbn [length]; lia).
  unfold at_. cbn [nth_error bind]. destruct (N.to_nat (256 * a + b)) as [|n] eqn:En; [lia|]. cbn [firstn Nat.sub]. rewrite ?Nat.sub_0_r.
  destruct (x =? 0); [reflexivity|]. destruct (x =? 1); reflexivity. Qed.
Lemma Counter_eq s : bytes s -> got (Counter_unmarshal Debug s) = Counter_reads s.
Proof. intros Hb. open_ 5%nat s. Qed.
Lemma CsgId_eq s : bytes s -> got (CsgId_unmarshal Debug s) = CsgId_reads s.
Proof. intros Hb. open_ 4%nat s. Qed.
Lemma CSGInformationReportingAction_eq s : bytes s -> got (CSGInformationReportingAction_unmarshal Debug s) = CSGInformationReportingAction_reads s.
Proof. intros Hb. open_ 1%nat s. Qed.
Lemma DelayValue_eq s : bytes s -> got (DelayValue_unmarshal Debug s) = DelayValue_reads s.
Proof. intros Hb. open_ 1%nat s. Qed.
Lemma DetachType_eq s : bytes s -> got (DetachType_unmarshal Debug s) = DetachType_reads s.
Proof. intros Hb. open_ 1%nat s. bys Hb. do 2 f_equal. per_octet x. Qed.
Lemma Ebi_eq s : bytes s -> got (Ebi_unmarshal Debug s) = Ebi_reads s.
Proof. intros Hb. open_ 1%nat s. Qed.
Lemma EcgiList_eq s : bytes s -> got (EcgiList_unmarshal Debug s) = EcgiList_reads s.
Proof. intros Hb. opens s. do 2 (destruct s as [|?x s]; [reflexivity|]). cbn [length Nat.leb]. unfold andthen at 1. unfold number, andthen at 1, take at 1.
  cbn [length Nat.leb firstn skipn yield]. unfold be_at, slice. cbn [Nat.leb Nat.add length andb Nat.sub firstn skipn bind]. rewrite be_list_base.
  destruct (N.eqb_spec (base256 [x; x0]) 0); [reflexivity|]. rewrite got_need.
  destruct (many_times _ _ _ (orelse_parses _ _ _ (IEIncorrect 190) Ecgi_parses) (N.to_nat (base256 [x; x0])) (t :: a :: b :: c :: x :: x0 :: s) 6 Hb ltac:(cbn [length]; lia)) as [H _].
  match goal with |- context [(?n <=? length ?l)%nat] => destruct (Nat.leb_spec n (length l)) as [Hl|Hl] end.
  - eapply step_c; [exact H|]. intros l c' _. reflexivity.
  - cbn [skipn] in H. unfold andthen. destruct (times _ Ecgi_ s) as [[l r]|] eqn:E; [|reflexivity]. exfalso.
    apply (times_length Ecgi_ 7) in E; [cbn [length] in Hl; lia|]. clear. intros s x r.
    destruct s as [|x1 [|x2 [|x3 [|x4 [|x5 [|x6 [|x7 s]]]]]]]; try discriminate. cbn. intros [= _ <-]. reflexivity. Qed.
Lemma EmlppPriority_eq s : bytes s -> got (EmlppPriority_unmarshal Debug s) = EmlppPriority_reads s.
Proof. intros Hb. open_ 1%nat s. Qed.
Lemma Epco_eq s : bytes s -> got (Epco_unmarshal Debug s) = Epco_reads s.
Proof. intros Hb. closes s. destruct (fits _ _) eqn:Hf; [|reflexivity]. pose proof (fits_inv _ _ Hf). unfold end16. rewrite (end16_fits _ _ Hf). cbn [bind]. rewrite ?slice4 by lia. reflexivity. Qed.
Lemma EpcTimer_eq s : bytes s -> got (EpcTimer_unmarshal Debug s) = EpcTimer_reads s.
Proof. intros Hb. open_ 1%nat s. bys Hb. do 2 f_equal. per_octet x. Qed.
Lemma Fcause_eq s : bytes s -> got (Fcause_unmarshal Debug s) = Fcause_reads s.
Proof. intros Hb. closes s. destruct s as [|x s]; [apply nothing_fits|]. cbn [length Nat.leb]. unfold at_. cbn [nth_error bind]. rewrite got_checked.
  destruct (fits _ _) eqn:Hf; [|reflexivity]. pose proof (fits_inv _ _ Hf). cbn [length] in *. rewrite slice5 by lia. bys Hb.
  destruct (N.to_nat (256 * a + b)) as [|n] eqn:En; [lia|]. cbn [firstn Nat.sub bind got option_map]. rewrite Nat.sub_0_r. do 3 f_equal. per_octet x. Qed.
Lemma Fcontainer_eq s : bytes s -> got (Fcontainer_unmarshal Debug s) = Fcontainer_reads s.
Proof. intros Hb. closes s. destruct s as [|x s]; [apply nothing_fits|]. cbn [length Nat.leb].
  destruct (fits _ _) eqn:Hf; [|reflexivity]. pose proof (fits_inv _ _ Hf). cbn [length] in *. rewrite ?slice5, ?slice4 by (cbn [length]; lia).
  unfold at_. cbn [nth_error bind]. destruct (N.to_nat (256 * a + b)) as [|n] eqn:En; [lia|]. cbn [firstn Nat.sub]. rewrite ?Nat.sub_0_r.
  bys Hb. cbn [firstn]. unfold entry. clear - B3.
  destruct (N.eqb_spec x 0) as [->|]; [reflexivity|]. destruct (N.eqb_spec x 1) as [->|]; [reflexivity|]. destruct (N.eqb_spec x 2) as [->|]; [reflexivity|].
  destruct (N.eqb_spec x 3) as [->|]; [reflexivity|]. destruct (N.eqb_spec x 4) as [->|]; [reflexivity|]. destruct (N.eqb_spec x 5) as [->|]; [reflexivity|].
  destruct (N.eqb_spec x 6) as [->|]; [reflexivity|]. rewrite nth_overflow; [reflexivity|]. cbn [length]. lia. Qed.
Lemma FlowQos_eq s : bytes s -> got (FlowQos_unmarshal Debug s) = FlowQos_reads s.
Proof. intros Hb. open_ 21%nat s. Qed.

(* numbers under a cursor *)
Lemma step_be {B C} s c n (k : N -> res C) (k' : N -> reader B) F : (c <= length s)%nat ->
  ((c + n <= length s)%nat -> got (k (base256 (firstn n (skipn c s)))) = wrap F (k' (base256 (firstn n (skipn c s))) (skipn (c + n) s))) ->
  got (bind (be_at s c n) k) = wrap F (andthen (number n) k' (skipn c s)).
Proof.
  intros Hc H. unfold be_at, number, andthen. rewrite take_skipn by exact Hc. destruct (Nat.leb_spec (c + n) (length s)) as [Hl|Hl].
  - rewrite slice_ok by lia. cbn [bind yield]. rewrite be_list_base. replace (c + n - c)%nat with n by lia. apply H. exact Hl.
  - unfold slice. rewrite (proj2 (Nat.leb_gt (c + n) (length s))) by lia. rewrite andb_false_r. reflexivity.
Qed.
Lemma step_s {B C} s c n (k : list N -> res C) (k' : list N -> reader B) F : (c <= length s)%nat ->
  ((c + n <= length s)%nat -> got (k (firstn n (skipn c s))) = wrap F (k' (firstn n (skipn c s)) (skipn (c + n) s))) ->
  got (bind (slice s c (c + n)) k) = wrap F (andthen (take n) k' (skipn c s)).
Proof.
  intros Hc H. unfold andthen. rewrite take_skipn by exact Hc. destruct (Nat.leb_spec (c + n) (length s)) as [Hl|Hl].
  - rewrite slice_ok by lia. cbn [bind]. replace (c + n - c)%nat with n by lia. apply H. exact Hl.
  - unfold slice. rewrite (proj2 (Nat.leb_gt (c + n) (length s))) by lia. rewrite andb_false_r. reflexivity.
Qed.
Lemma lv_range s c e l c' : lv_at s c e = Ok (l, c') -> (c' <= length s)%nat.
Proof.
  unfold lv_at. intros H. apply bind_ok in H as (x & _ & H). destruct (Nat.leb_spec (c + 1 + N.to_nat x) (length s)); [|discriminate].
  apply bind_ok in H as (y & _ & H). injection H as _ <-. assumption.
Qed.
(* a reader that fails, after a check that fails *)
Lemma take1_none {A} (k : N -> reader A) s c : (length s <= c)%nat -> andthen take1 k (skipn c s) = None.
Proof. intros H. rewrite skipn_all2 by exact H. reflexivity. Qed.

(* a length octet of 4 or 16 and an address *)
Lemma counted_address_at s c : counted_address (skipn c s) =
  match nth_error s c with
  | Some k => if k =? 4 then option_map (fun '(o, q) => (IpV4 o, q)) (take 4 (skipn (S c) s))
              else if k =? 16 then option_map (fun '(o, q) => (IpV6 o, q)) (take 16 (skipn (S c) s))
              else None
  | None => None
  end.
Proof.
  unfold counted_address, counted. unfold andthen at 1 2. destruct (nth_error s c) as [k|] eqn:E.
  2: { rewrite (skipn_none _ _ E). reflexivity. }
  rewrite (skipn_cons _ _ _ E). cbn [take1].
  destruct (N.eqb_spec k 4) as [->|]; [change (N.to_nat 4) with 4%nat; unfold take; destruct (Nat.leb_spec 4 (length (skipn (S c) s)))|].
  { rewrite firstn_length_le by assumption. reflexivity. } { reflexivity. }
  destruct (N.eqb_spec k 16) as [->|]; [change (N.to_nat 16) with 16%nat; unfold take; destruct (Nat.leb_spec 16 (length (skipn (S c) s)))|].
  { rewrite firstn_length_le by assumption. reflexivity. } { reflexivity. }
  unfold take. destruct (Nat.leb_spec (N.to_nat k) (length (skipn (S c) s))); [|reflexivity]. rewrite firstn_length_le by assumption.
  destruct (Nat.eqb_spec (N.to_nat k) 4); [lia|]. destruct (Nat.eqb_spec (N.to_nat k) 16); [lia|]. reflexivity.
Qed.
Lemma ExtendedTraceInformation_eq s : bytes s -> got (ExtendedTraceInformation_unmarshal Debug s) = ExtendedTraceInformation_reads s.
Proof. intros Hb. opens s. do 3 (destruct s as [|?x s]; [reflexivity|]). fixd 3%nat s. destruct s as [|x5 s]; [reflexivity|].
  set (S0 := t :: a :: b :: c :: x :: x0 :: x1 :: x2 :: x3 :: x4 :: x5 :: s) in *. change (11 <=? length S0)%nat with true. cbv iota.
  unfold be_at. change (slice S0 7 (7 + 3)) with (@Ok GTPV2Error _ [x2; x3; x4]). cbn [bind]. rewrite be_list_base.
  rewrite (plmn_at_skip S0 4 x x0 x1 (x2 :: x3 :: x4 :: x5 :: s) eq_refl). cbn [bind].
  unfold plmn_, andthen at 1 2 3 4. cbn [take1]. unfold andthen at 1. cbn [yield]. unfold andthen at 1. unfold number at 1, andthen at 1, take at 1. cbn [length Nat.leb firstn skipn yield].
  change (x5 :: s) with (skipn 10 S0).
  eapply step_c; [apply lv_counted|]. intros ev k Hk. apply lv_range in Hk. eapply step_c; [apply lv_counted|]. intros ne k2 Hk2. apply lv_range in Hk2.
  rewrite got_need. destruct (Nat.leb_spec (k2 + 1) (length S0)); [|rewrite take1_none by lia; reflexivity].
  apply step_1. intros d _. rewrite (Nat.add_1_r k2). eapply step_c; [apply lv_counted|]. intros ifs k3 Hk3. apply lv_range in Hk3.
  unfold andthen. rewrite counted_address_at. unfold at_. destruct (nth_error S0 k3) as [y|] eqn:Ey; [|reflexivity]. cbn [bind].
  assert (k3 < length S0)%nat by (apply nth_error_Some; congruence).
  destruct (N.eqb_spec y 4); [|destruct (N.eqb_spec y 16)]; [| |reflexivity]; rewrite got_bind, got_need, take_skipn by lia.
  - replace (S k3 + 4)%nat with (k3 + 5)%nat by lia. destruct (Nat.leb_spec (k3 + 5) (length S0)); [|reflexivity].
    rewrite slice_ok by lia. replace (k3 + 5 - (k3 + 1))%nat with 4%nat by lia. replace (k3 + 1)%nat with (S k3) by lia. reflexivity.
  - replace (S k3 + 16)%nat with (k3 + 17)%nat by lia. destruct (Nat.leb_spec (k3 + 17) (length S0)); [|reflexivity].
    rewrite slice_ok by lia. replace (k3 + 17 - (k3 + 1))%nat with 16%nat by lia. replace (k3 + 1)%nat with (S k3) by lia. reflexivity. Qed.
Lemma fits_no len q : (length q < N.to_nat len)%nat -> fits len q = false.
Proof. intros H. apply not_true_iff_false. intros Hg. apply fits_inv in Hg. lia. Qed.
Lemma fits_yes len q : 1 <= len <= 65531 -> (N.to_nat len <= length q)%nat -> fits len q = true.
Proof. intros H H2. unfold fits, nlen. rewrite !(proj2 (N.leb_le _ _)) by lia. reflexivity. Qed.
Lemma Fqcsid_eq s : bytes s -> got (Fqcsid_unmarshal Debug s) = Fqcsid_reads s.
Proof. intros Hb. unf; hd s. rewrite got_need. cbn [length Nat.leb]. rewrite loose_wrap. destruct s as [|x s]; [apply nothing_fits|]. cbn [length Nat.leb].
  rewrite got_hdr4, got_checked. destruct (fits _ _) eqn:Hf; [|reflexivity]. unfold at_. cbn [nth_error bind]. arith.
  assert (Hs : bytes s) by (bys Hb; exact Hb). assert (Hx : x mod 16 < 16) by (apply N.mod_lt; lia). bys Hb.
  unfold andthen at 1. cbn [take1].
  destruct (N.eqb_spec (x / 16) 0); [|destruct (N.eqb_spec (x / 16) 1); [|destruct (N.eqb_spec (x / 16) 2); [|reflexivity]]]; rewrite got_checked;
    unfold number at 1, andthen, take at 1.
  - destruct (Nat.leb_spec 4 (length s)); [|rewrite fits_no by (cbn [length]; lia); reflexivity].
    cbn [yield]. rewrite number2_chunks by (apply bytes_skipn; exact Hs). rewrite skipn_length.
    destruct (Nat.leb_spec (2 * N.to_nat (x mod 16)) (length s - 4)); [|rewrite fits_no by (cbn [length]; lia); reflexivity].
    rewrite fits_yes by (cbn [length]; lia). rewrite !slice_ok by (cbn [length]; lia). cbn [bind got yield wrap]. cbn [skipn Nat.sub].
    do 4 f_equal; try reflexivity. f_equal. lia.
  - destruct (Nat.leb_spec 16 (length s)); [|rewrite fits_no by (cbn [length]; lia); reflexivity].
    cbn [yield]. rewrite number2_chunks by (apply bytes_skipn; exact Hs). rewrite skipn_length.
    destruct (Nat.leb_spec (2 * N.to_nat (x mod 16)) (length s - 16)); [|rewrite fits_no by (cbn [length]; lia); reflexivity].
    rewrite fits_yes by (cbn [length]; lia). rewrite !slice_ok by (cbn [length]; lia). cbn [bind got yield wrap]. cbn [skipn Nat.sub].
    do 4 f_equal; try reflexivity. f_equal. lia.
  - destruct (Nat.leb_spec 4 (length s)); [|rewrite fits_no by (cbn [length]; lia); reflexivity].
    cbn [yield]. rewrite number2_chunks by (apply bytes_skipn; exact Hs). rewrite skipn_length.
    destruct (Nat.leb_spec (2 * N.to_nat (x mod 16)) (length s - 4)); [|rewrite fits_no by (cbn [length]; lia); reflexivity].
    rewrite fits_yes by (cbn [length]; lia). unfold be_at. rewrite !slice_ok by (cbn [length]; lia). cbn [bind got yield wrap]. rewrite be_list_base. cbn [skipn Nat.sub].
    do 4 f_equal; try reflexivity. f_equal. lia. Qed.
Lemma Fqdn_eq s : bytes s -> got (Fqdn_unmarshal Debug s) = Fqdn_reads s.
Proof. intros Hb. closes s. destruct (fits _ _) eqn:Hf; [|reflexivity]. pose proof (fits_inv _ _ Hf). rewrite slice4 by lia. cbn [bind]. rewrite got_bind, name_got. destruct (name_in _); reflexivity. Qed.
