(* V2ReadFactsD.v - the MM context decoders of V2IeD.v against the grammar of V2ReadSpec.v *)
From Verif Require Import BaseFacts Digits Labels V2ReadSpec Octets V2ReadFacts V2ReadFactsB V2ReadFactsC.
Local Open Scope N_scope.

(* [sim], and the cursor stays in the buffer *)
Definition simr {A} (s : list N) (r : res (A * nat)) (o : option (A * list N)) : Prop :=
  sim s r o /\ (forall a c, r = Ok (a, c) -> (c <= length s)%nat).
Lemma step_r {A B C} s (r : res (A * nat)) (p : reader A) q (k : A * nat -> res C) (k' : A -> reader B) F :
  simr s r (p q) -> (forall a c, (c <= length s)%nat -> got (k (a, c)) = wrap F (k' a (skipn c s))) ->
  got (bind r k) = wrap F (andthen p k' q).
Proof. intros [H Hr] Hk. eapply step_c; [exact H|]. intros a c E. apply Hk. exact (Hr _ _ E). Qed.
Lemma step_r' {A B} s (r : res (A * nat)) (p : reader A) q (k : A * nat -> res (B * nat)) (k' : A -> reader B) :
  simr s r (p q) -> (forall a c, (c <= length s)%nat -> simr s (k (a, c)) (k' a (skipn c s))) ->
  simr s (bind r k) (andthen p k' q).
Proof.
  intros [H Hr] Hk. unfold andthen. destruct r as [[a c]| | |]; destruct (p q) as [[a' q']|]; try easy.
  destruct H as [<- ->]. apply Hk. exact (Hr _ _ eq_refl).
Qed.
Lemma step_1r {B} s c (k : N -> res (B * nat)) (k' : N -> reader B) :
  (forall x, nth_error s c = Some x -> (c < length s)%nat -> simr s (k x) (k' x (skipn (S c) s))) ->
  simr s (bind (at_ s c) k) (andthen take1 k' (skipn c s)).
Proof.
  intros H. unfold at_, andthen. destruct (nth_error s c) eqn:E; cbn [bind].
  - rewrite (skipn_cons _ _ _ E). apply H; [reflexivity|]. apply nth_error_Some. congruence.
  - rewrite (skipn_none _ _ E). split; [exact I|discriminate].
Qed.
Lemma simr_ok {A} s (a : A) c : (c <= length s)%nat -> simr s (Ok (a, c)) (Some (a, skipn c s)).
Proof. intros H. split; [split; reflexivity|]. intros a' c' E. injection E as _ <-. exact H. Qed.
Lemma simr_err {A} s e : simr s (Err e : res (A * nat)) None.
Proof. split; [exact I|discriminate]. Qed.
Lemma simr_panic {A} s : simr s (Panic : res (A * nat)) None.
Proof. split; [exact I|discriminate]. Qed.
Lemma lv_r s c e : simr s (lv_at s c e) (counted (skipn c s)).
Proof. split; [apply lv_counted|]. intros a c'. apply lv_range. Qed.

Lemma cap_absent T s c : sim s (cap_at T s c) (or_absent (skipn c s)).
Proof.
  unfold cap_at, or_absent. apply step_1'. intros x Hx. assert (c < length s)%nat by (apply nth_error_Some; congruence).
  destruct (N.eqb_spec x 0) as [->|Hz].
  - change (0 <? 0) with false. cbv iota. cbn [andthen pass yield sim]. split; [reflexivity|]. rewrite skipn_skipn'. f_equal. lia.
  - rewrite (proj2 (N.ltb_lt _ _)) by lia. unfold lv_at, at_. rewrite Hx. cbn [bind]. unfold andthen. rewrite take_skipn by lia.
    replace (c + 1 + N.to_nat x)%nat with (S c + N.to_nat x)%nat by lia.
    destruct (Nat.leb_spec (S c + N.to_nat x) (length s)); [|exact I].
    rewrite slice_ok by lia. cbn [bind sim yield]. split; [|reflexivity]. replace (c + 1)%nat with (S c) by lia. do 2 f_equal. lia.
Qed.
Lemma optlv_none T s c : simr s (optlv_at T s c) (or_none (skipn c s)).
Proof.
  unfold optlv_at, or_none. apply step_1r. intros x Hx Hl. destruct (N.eqb_spec x 0) as [->|Hz].
  - change (0 <? 0) with false. cbv iota. rewrite (Nat.add_1_r c). apply simr_ok. exact Hl.
  - rewrite (proj2 (N.ltb_lt _ _)) by lia. unfold lv_at, at_. rewrite Hx. cbn [bind]. unfold andthen. rewrite take_skipn by lia.
    replace (c + 1 + N.to_nat x)%nat with (S c + N.to_nat x)%nat by lia.
    destruct (Nat.leb_spec (S c + N.to_nat x) (length s)); [|apply simr_err].
    rewrite slice_ok by lia. cbn [bind yield]. replace (S c + N.to_nat x - (c + 1))%nat with (N.to_nat x) by lia. replace (c + 1)%nat with (S c) by lia.
    apply simr_ok. assumption.
Qed.
Lemma access_eq x : AccessRestrictionMM_of x = access_of x.
Proof. unfold AccessRestrictionMM_of, access_of. bits. reflexivity. Qed.
Lemma ext_access_eq x : ExtendedAccessRestrictionMM_of x = ext_access_of x.
Proof. unfold ExtendedAccessRestrictionMM_of, ext_access_of. bits. reflexivity. Qed.
Lemma access_r s c : simr s (access_at s c) (octet_as access_of (skipn c s)).
Proof. unfold access_at, octet_as. apply step_1r. intros x _ Hl. rewrite access_eq, (Nat.add_1_r c). apply simr_ok. exact Hl. Qed.
Lemma drx_r i s c : (c <= length s)%nat -> simr s (drx_at i s c) (drx_ i (skipn c s)).
Proof.
  intros Hc. unfold drx_at, drx_. rewrite skipn_length.
  replace (2 <=? length s - c)%nat with (c + 2 <=? length s)%nat by (destruct (Nat.leb_spec (c + 2) (length s)); destruct (Nat.leb_spec 2 (length s - c)); reflexivity || lia).
  destruct i; cbn [andb]; [|apply simr_ok; exact Hc]. destruct (Nat.leb_spec (c + 2) (length s)); [|apply simr_ok; exact Hc].
  rewrite slice_ok by lia. cbn [bind]. replace (c + 2 - c)%nat with 2%nat by lia. rewrite skipn_skipn'. apply simr_ok. assumption.
Qed.
Lemma nh_r i s c : (c <= length s)%nat -> simr s (nh_at i s c) (next_hop_ i (skipn c s)).
Proof.
  intros Hc. unfold nh_at, next_hop_. rewrite skipn_length.
  replace (33 <=? length s - c)%nat with (c + 33 <=? length s)%nat by (destruct (Nat.leb_spec (c + 33) (length s)); destruct (Nat.leb_spec 33 (length s - c)); reflexivity || lia).
  destruct i; cbn [andb]; [|apply simr_ok; exact Hc]. destruct (Nat.leb_spec (c + 33) (length s)); [|apply simr_ok; exact Hc].
  rewrite slice_ok by lia. cbn [bind]. replace (c + 32 - c)%nat with 32%nat by lia. unfold andthen. rewrite take_skipn by lia.
  rewrite (proj2 (Nat.leb_le _ _)) by lia. destruct (nth_error s (c + 32)) as [x|] eqn:E; [|apply nth_error_None in E; lia].
  unfold at_. rewrite E, (skipn_cons _ _ _ E). cbn [bind take1 yield]. replace (S (c + 32)) with (c + 33)%nat by lia. apply simr_ok. assumption.
Qed.
Lemma parses_at {A} (dec : list N -> res A) size p s c : parses dec size p -> bytes s -> (c <= length s)%nat ->
  simr s (let? t := slice_from s c in let? x := dec t in Ok (x, (c + size x)%nat)) (p (skipn c s)).
Proof.
  intros Hp Hs Hc. rewrite slice_from_ok by exact Hc. cbn [bind]. specialize (Hp _ (bytes_skipn c _ Hs)). destruct (p (skipn c s)) as [[x r]|].
  - destruct Hp as (-> & -> & Hl). rewrite skipn_length in Hl. cbn [bind]. rewrite skipn_skipn'. apply simr_ok. lia.
  - destruct (dec (skipn c s)); try discriminate Hp; (split; [exact I|discriminate]).
Qed.
Lemma AmbrMm_parses : parses AmbrMM_dec (fun _ => 8%nat) AmbrMm_.
Proof. part 8%nat s. part_end. unfold AmbrMM_dec. run. arith. reflexivity. Qed.
Lemma ambr_r T i s c : bytes s -> (c <= length s)%nat -> simr s (ambr_at T i s c) (if_set i AmbrMm_ (skipn c s)).
Proof.
  intros Hs Hc. unfold ambr_at, if_set. destruct i; [|apply simr_ok; exact Hc]. unfold need. destruct (Nat.leb_spec (c + 8) (length s)) as [Hl|Hl].
  - rewrite slice_from_ok by exact Hc. cbn [bind]. pose proof (orelse_parses _ _ _ (IEIncorrect T) AmbrMm_parses _ (bytes_skipn c _ Hs)) as H.
    cbv beta in H. unfold andthen. destruct (AmbrMm_ (skipn c s)) as [[x r]|].
    + destruct H as (-> & -> & _). cbn [bind yield]. rewrite skipn_skipn'. apply simr_ok. exact Hl.
    + destruct (orelse _ _); try discriminate H; (split; [exact I|discriminate]).
  - unfold andthen, AmbrMm_, number, andthen. rewrite take_skipn by exact Hc. destruct (Nat.leb_spec (c + 4) (length s)) as [H4|H4]; [|apply simr_err].
    cbn [yield]. rewrite take_skipn by exact H4. rewrite (proj2 (Nat.leb_gt _ _)) by lia. apply simr_err.
Qed.
Lemma ksi_eq x : N.shiftr (N.land x 56) 3 = x / 8 mod 8.
Proof.
  rewrite <- land7, <- shiftr3. rewrite N.shiftr_land. reflexivity.
Qed.
Lemma OldEps_parses : parses OldEpsSecurityContext_dec OldEpsSecurityContext_size OldEps_.
Proof.
  intros s Hb. destruct s as [|x s]; [reflexivity|]. unfold OldEpsSecurityContext_dec, OldEps_. unfold at_. cbn [nth_error bind]. unfold andthen at 1. cbn [take1].
  rewrite shiftr7, ksi_eq, land7. bys Hb. rewrite top_bit by assumption. unfold andthen at 1, take at 1. unfold need. cbn [length].
  destruct (bit_at x 7).
  - change (1 =? 0) with false. change (1 =? 1) with true. cbv iota. destruct (Nat.leb_spec 32 (length s)).
    + unfold andthen, take. rewrite skipn_length. destruct (Nat.leb_spec 32 (length s - 32)).
      * cbn [yield]. rewrite (proj2 (Nat.leb_le _ _)) by lia. rewrite !slice_ok by (cbn [length]; lia). cbn [bind]. split; [reflexivity|].
        unfold OldEpsSecurityContext_size. cbn [oe_next_hop is_some]. split; [|lia]. rewrite skipn_skipn'. reflexivity.
      * rewrite (proj2 (Nat.leb_gt _ _)) by lia. reflexivity.
    + rewrite (proj2 (Nat.leb_gt _ _)) by lia. reflexivity.
  - change (0 =? 0) with true. cbv iota. destruct (Nat.leb_spec 32 (length s)).
    + rewrite (proj2 (Nat.leb_le _ _)) by lia. rewrite slice_ok by (cbn [length]; lia). cbn [bind yield]. split; [reflexivity|].
      unfold OldEpsSecurityContext_size. cbn [oe_next_hop is_some]. split; [reflexivity|lia].
    + rewrite (proj2 (Nat.leb_gt _ _)) by lia. reflexivity.
Qed.
Lemma old_r T i s c : bytes s -> (c <= length s)%nat -> simr s (old_at T i s c) (if_set i OldEps_ (skipn c s)).
Proof.
  intros Hs Hc. unfold old_at, if_set. destruct i; [|apply simr_ok; exact Hc].
  rewrite slice_from_ok by exact Hc. cbn [bind]. pose proof (orelse_parses _ _ _ (IEIncorrect T) OldEps_parses _ (bytes_skipn c _ Hs)) as H.
  cbv beta in H. unfold andthen. destruct (OldEps_ (skipn c s)) as [[x r]|].
  - destruct H as (-> & -> & Hl). rewrite skipn_length in Hl. cbn [bind yield]. rewrite skipn_skipn'. apply simr_ok. lia.
  - destruct (orelse _ _); try discriminate H; (split; [exact I|discriminate]).
Qed.
Lemma higher_r s c : simr s (higher_at s c) (higher_ (skipn c s)).
Proof.
  unfold higher_at, higher_. apply step_1r. intros x _ Hl. rewrite skipn_length, (Nat.add_1_r c).
  replace (N.to_nat x <=? length s - S c)%nat with (S c + N.to_nat x <=? length s)%nat
    by (destruct (Nat.leb_spec (S c + N.to_nat x) (length s)); destruct (Nat.leb_spec (N.to_nat x) (length s - S c)); reflexivity || lia).
  destruct (Nat.leb_spec (S c + N.to_nat x) (length s)); [|apply simr_ok; exact Hl].
  unfold at_. destruct (nth_error s (S c)) as [y|] eqn:E.
  - rewrite (skipn_cons _ _ _ E) at 1. cbn [bind]. rewrite skipn_skipn'. apply simr_ok. assumption.
  - rewrite (skipn_none _ _ E). apply simr_panic.
Qed.
Lemma ext_access_r T s c : (c <= length s)%nat -> simr s (ext_access_at T s c) (ext_access_ (skipn c s)).
Proof.
  intros Hc. unfold ext_access_at, ext_access_, at_. destruct (nth_error s c) as [l|] eqn:E.
  2: { rewrite (skipn_none _ _ E). apply simr_panic. }
  rewrite (skipn_cons _ _ _ E) at 1. cbn [bind]. assert (c < length s)%nat by (apply nth_error_Some; congruence).
  destruct (N.eqb_spec l 1) as [->|].
  - change (1 =? 0) with false. cbv iota. unfold need. rewrite (proj2 (Nat.leb_le _ _)) by lia. rewrite (Nat.add_1_r c).
    destruct (nth_error s (S c)) as [x|] eqn:E2.
    + rewrite (skipn_cons _ _ _ E2). cbn [bind]. rewrite ext_access_eq. replace (c + 2)%nat with (S (S c)) by lia. apply simr_ok. apply nth_error_Some. congruence.
    + rewrite (skipn_none _ _ E2). apply simr_panic.
  - destruct (N.eqb_spec l 0); [apply simr_ok; exact Hc|apply simr_err].
Qed.
Lemma iov_r T i s c : (c <= length s)%nat -> simr s (iov_at T i s c) (iov_ i (skipn c s)).
Proof.
  intros Hc. unfold iov_at, iov_. unfold andthen at 1, accept. destruct i; cbn [andb]; [|apply simr_err].
  rewrite (proj2 (Nat.leb_le _ _)) by exact Hc. apply step_1r. intros x _ Hl. rewrite (Nat.add_1_r c). apply simr_ok. exact Hl.
Qed.

(* authentication vectors *)
Lemma counted_len s x r : counted s = Some (x, r) -> r = skipn (1 + length x) s /\ (1 + length x <= length s)%nat.
Proof.
  unfold counted, andthen. destruct s as [|n s]; [discriminate|]. cbn [take1]. unfold take. destruct (Nat.leb_spec (N.to_nat n) (length s)); [|discriminate].
  intros [= <- <-]. rewrite firstn_length_le by assumption. cbn [Nat.add skipn length]. split; [reflexivity|lia].
Qed.
Lemma take_len n s x r : take n s = Some (x, r) -> r = skipn n s /\ (n <= length s)%nat /\ length x = n.
Proof. unfold take. destruct (Nat.leb_spec n (length s)); [|discriminate]. intros [= <- <-]. rewrite firstn_length_le by assumption. auto. Qed.
Lemma some_of {A B} (p : reader A) (k : A -> reader B) s x r : andthen p k s = Some (x, r) -> exists a q, p s = Some (a, q) /\ k a q = Some (x, r).
Proof. unfold andthen. destruct (p s) as [[a q]|]; [|discriminate]. eauto. Qed.
Definition fin {A} (o : option (A * list N)) := wrap (fun x => x) o.
Lemma parses_intro {A} (dec : list N -> res A) size p :
  (forall s, bytes s -> got (dec s) = wrap (fun x => x) (p s)) ->
  (forall s x r, p s = Some (x, r) -> r = skipn (size x) s /\ (size x <= length s)%nat) -> parses dec size p.
Proof.
  intros H1 H2 s Hs. specialize (H1 s Hs). specialize (H2 s). destruct (p s) as [[x r]|].
  - destruct (H2 x r eq_refl). split; [|split; assumption]. cbn in H1. destruct (dec s); try discriminate H1. injection H1 as ->. reflexivity.
  - exact H1.
Qed.
Lemma Triplet_parses : parses AuthTriplet_dec (fun _ => 28%nat) Triplet_.
Proof.
  apply parses_intro.
  - intros s _. unfold AuthTriplet_dec, Triplet_. rewrite got_need. destruct (Nat.leb_spec 28 (length s)).
    + change s with (skipn 0 s) at 4. apply (step_s s 0 16); [lia|]. intros _. apply (step_s s 16 4); [lia|]. intros _. apply (step_s s 20 8); [lia|]. intros _. reflexivity.
    + unfold andthen. destruct (take 16 s) as [[x1 q1]|] eqn:E1; [|reflexivity]. apply take_len in E1 as (-> & H1 & _).
      destruct (take 4 _) as [[x2 q2]|] eqn:E2; [|reflexivity]. apply take_len in E2 as (-> & H2 & _). rewrite skipn_length in H2.
      destruct (take 8 _) as [[x3 q3]|] eqn:E3; [|reflexivity]. apply take_len in E3 as (-> & H3 & _). rewrite !skipn_length in H3. lia.
  - intros s x r H. unfold Triplet_ in H. apply some_of in H as (x1 & q1 & E1 & H). apply some_of in H as (x2 & q2 & E2 & H). apply some_of in H as (x3 & q3 & E3 & H).
    injection H as _ <-. apply take_len in E1 as (-> & H1 & _). apply take_len in E2 as (-> & H2 & _). apply take_len in E3 as (-> & H3 & _). rewrite !skipn_length in *. rewrite !skipn_skipn'. split; [reflexivity|lia].
Qed.
Lemma Quintuplet_parses : parses AuthQuintuplet_dec AuthQuintuplet_size Quintuplet_.
Proof.
  apply parses_intro.
  - intros s _. unfold AuthQuintuplet_dec, Quintuplet_. rewrite got_need. destruct (Nat.leb_spec 16 (length s)) as [H16|H16].
    + change s with (skipn 0 s) at 5. apply (step_s s 0 16); [lia|]. intros _. change (0 + 16)%nat with 16%nat.
      eapply step_r; [apply lv_r|]. intros xres c Hc. rewrite got_need. destruct (Nat.leb_spec (c + 32) (length s)) as [Hl|Hl].
      * apply step_s; [lia|]. intros _. replace (c + 32)%nat with (c + 16 + 16)%nat by lia. apply step_s; [lia|]. intros _. eapply step_r; [apply lv_r|]. intros autn k _. reflexivity.
      * unfold andthen. destruct (take 16 (skipn c s)) as [[x1 q1]|] eqn:E1; [|reflexivity]. apply take_len in E1 as (-> & H1 & _). rewrite skipn_length in H1.
        destruct (take 16 _) as [[x2 q2]|] eqn:E2; [|reflexivity]. apply take_len in E2 as (-> & H2 & _). rewrite !skipn_length in H2. lia.
    + unfold andthen, take. rewrite (proj2 (Nat.leb_gt _ _)) by lia. reflexivity.
  - intros s x r H. unfold Quintuplet_ in H. apply some_of in H as (x1 & q1 & E1 & H). apply some_of in H as (x2 & q2 & E2 & H). apply some_of in H as (x3 & q3 & E3 & H).
    apply some_of in H as (x4 & q4 & E4 & H). apply some_of in H as (x5 & q5 & E5 & H).
    injection H as <- <-. apply take_len in E1 as (-> & H1 & _). apply counted_len in E2 as (-> & H2). apply take_len in E3 as (-> & H3 & _). apply take_len in E4 as (-> & H4 & _). apply counted_len in E5 as (-> & H5).
    rewrite !skipn_length in *. rewrite !skipn_skipn'. unfold AuthQuintuplet_size. cbn [aq_xres aq_autn]. split; [f_equal; lia|lia].
Qed.
Lemma Quadruplet_parses : parses AuthQuadruplet_dec AuthQuadruplet_size Quadruplet_.
Proof.
  apply parses_intro.
  - intros s _. unfold AuthQuadruplet_dec, Quadruplet_. rewrite got_need. destruct (Nat.leb_spec 17 (length s)) as [H17|H17].
    + change s with (skipn 0 s) at 5. apply (step_s s 0 16); [lia|]. intros _. change (0 + 16)%nat with 16%nat.
      eapply step_r; [apply lv_r|]. intros xres c Hc. eapply step_r; [apply lv_r|]. intros autn k Hk. rewrite got_need. destruct (Nat.leb_spec (k + 32) (length s)) as [Hl|Hl].
      * apply step_s; [lia|]. intros _. reflexivity.
      * unfold andthen. destruct (take 32 (skipn k s)) as [[x1 q1]|] eqn:E1; [|reflexivity]. apply take_len in E1 as (-> & H1 & _). rewrite skipn_length in H1. lia.
    + unfold andthen. destruct (take 16 s) as [[x1 q1]|] eqn:E1; [|reflexivity]. apply take_len in E1 as (-> & H1 & _).
      rewrite skipn_all2 by lia. reflexivity.
  - intros s x r H. unfold Quadruplet_ in H. apply some_of in H as (x1 & q1 & E1 & H). apply some_of in H as (x2 & q2 & E2 & H). apply some_of in H as (x3 & q3 & E3 & H).
    apply some_of in H as (x4 & q4 & E4 & H).
    injection H as <- <-. apply take_len in E1 as (-> & H1 & _). apply counted_len in E2 as (-> & H2). apply counted_len in E3 as (-> & H3). apply take_len in E4 as (-> & H4 & _).
    rewrite !skipn_length in *. rewrite !skipn_skipn'. unfold AuthQuadruplet_size. cbn [ad_xres ad_autn]. split; [f_equal; lia|lia].
Qed.
Lemma auth_r {A} (dec : list N -> res A) size p T n s c : parses dec size p -> bytes s -> (c <= length s)%nat ->
  simr s (auth_at dec size T n s c) (upto5 n p (skipn c s)).
Proof.
  intros Hp Hs Hc. unfold auth_at, upto5. destruct (n =? 0); [apply simr_ok; exact Hc|]. destruct (n <=? 5); [|apply simr_err].
  destruct (many_times _ _ _ Hp (N.to_nat n) s c Hs Hc) as [H1 H2]. unfold andthen.
  destruct (many dec size (N.to_nat n) s c) as [[l c1]|e| |]; destruct (times (N.to_nat n) p (skipn c s)) as [[l' q]|]; try contradiction H1; cbn [orelse bind].
  - destruct H1 as [<- ->]. cbn [yield]. apply simr_ok. exact (H2 _ _ eq_refl).
  - apply simr_err.
  - apply simr_panic.
  - split; [exact I|discriminate].
Qed.
Lemma trips_r n s c : bytes s -> (c <= length s)%nat -> simr s (trips_at n s c) (upto5 n Triplet_ (skipn c s)).
Proof.
  intros Hs Hc. pose proof (auth_r _ _ _ 103 n s c Triplet_parses Hs Hc) as H. unfold trips_at, need.
  destruct (N.eqb_spec n 0) as [->|Hz]; [exact H|]. destruct (N.leb_spec n 5) as [H5|H5]; [|unfold auth_at in H].
  - destruct (Nat.leb_spec (c + N.to_nat n * 28) (length s)) as [Hl|Hl]; [exact H|].
    replace (upto5 n Triplet_ (skipn c s)) with (@None (option (list auth_triplet) * list N)); [apply simr_err|].
    symmetry. unfold upto5. rewrite (proj2 (N.eqb_neq n 0)) by exact Hz. rewrite (proj2 (N.leb_le n 5)) by exact H5. unfold andthen.
    destruct (times _ _ _) as [[l r]|] eqn:E; [|reflexivity]. exfalso. apply (times_length Triplet_ 28) in E; [rewrite skipn_length in E; lia|].
    clear. intros s x r H. pose proof (Triplet_parses s) as P. unfold Triplet_ in H. apply some_of in H as (x1 & q1 & E1 & H). apply some_of in H as (x2 & q2 & E2 & H). apply some_of in H as (x3 & q3 & E3 & H).
    injection H as _ <-. apply take_len in E1 as (-> & H1 & _). apply take_len in E2 as (-> & H2 & _). apply take_len in E3 as (-> & H3 & _). rewrite !skipn_length in *. lia.
  - unfold upto5. rewrite (proj2 (N.eqb_neq n 0)) by exact Hz. rewrite (proj2 (N.leb_gt n 5)) by exact H5. apply simr_err.
Qed.

(* APN rate control status *)
Lemma rate_dec q : bytes q ->
  match RateMm_ q with
  | Some (x, _) => ApnRateControlStatusMM_dec q = Ok x
  | None => if rates_end q then exists e, ApnRateControlStatusMM_dec q = Err e else ApnRateControlStatusMM_dec q = Panic
  end.
Proof.
  intros Hq. unfold ApnRateControlStatusMM_dec, RateMm_, need. destruct q as [|a [|b r]]; try (cbn; eexists; reflexivity).
  assert (B1 : be_at (a :: b :: r) 0 2 = Ok (base256 [a; b])) by (unfold be_at; change (slice (a :: b :: r) 0 (0 + 2)) with (@Ok GTPV2Error _ [a; b]); cbn [bind]; rewrite be_list_base; reflexivity).
  rewrite B1. clear B1. cbn [length Nat.leb bind].
  unfold andthen at 1. unfold number at 1, andthen at 1, take at 1. cbn [length Nat.leb firstn skipn yield]. unfold rates_end.
  assert (E : base256 [a; b] = 256 * a + b) by (unfold base256; cbn [fold_left]; lia). rewrite E. set (n := N.to_nat (256 * a + b)).
  unfold andthen at 1, room. replace (n + 2 <=? S (S (length r)))%nat with (n <=? length r)%nat
    by (destruct (Nat.leb_spec n (length r)); destruct (Nat.leb_spec (n + 2) (S (S (length r)))); reflexivity || lia).
  destruct (Nat.leb_spec n (length r)); [|cbn [andb negb]; eexists; reflexivity]. cbn [andb].
  destruct r as [|x [|y r]]; try reflexivity.
  assert (B1 : be_at (a :: b :: x :: y :: r) 2 2 = Ok (base256 [x; y])) by (unfold be_at; change (slice (a :: b :: x :: y :: r) 2 (2 + 2)) with (@Ok GTPV2Error _ [x; y]); cbn [bind]; rewrite be_list_base; reflexivity).
  rewrite B1. clear B1. cbn [bind].
  unfold andthen at 1. unfold number at 1, andthen at 1, take at 1. cbn [length Nat.leb firstn skipn yield Nat.ltb negb].
  set (S0 := a :: b :: x :: y :: r). set (k := N.to_nat (base256 [x; y])). change (S (S (S (S (length r))))) with (length S0).
  change r with (skipn 4 S0). assert (H4 : (4 <= length S0)%nat) by (unfold S0; cbn [length]; lia).
  unfold andthen at 1. rewrite take_skipn by exact H4. rewrite (Nat.add_comm k 4).
  destruct (Nat.leb_spec (4 + k) (length S0)) as [Hk|Hk]; [|eexists; reflexivity]. rewrite slice_ok by lia. cbn [bind]. replace (4 + k - 4)%nat with k by lia.
  set (c := (4 + k)%nat) in *. unfold number, andthen. rewrite take_skipn by exact Hk.
  destruct (Nat.leb_spec (c + 20) (length S0)) as [Hl|Hl].
  - rewrite (proj2 (Nat.leb_le (c + 4) _)) by lia. cbn [yield]. rewrite take_skipn by lia. rewrite (proj2 (Nat.leb_le (c + 4 + 4) _)) by lia. cbn [yield].
    rewrite take_skipn by lia. rewrite (proj2 (Nat.leb_le (c + 4 + 4 + 4) _)) by lia. cbn [yield]. rewrite take_skipn by lia. rewrite (proj2 (Nat.leb_le (c + 4 + 4 + 4 + 8) _)) by lia.
    unfold be_at. rewrite !slice_ok by lia. cbn [bind yield]. rewrite !be_list_base.
    replace (c + 4 - c)%nat with 4%nat by lia. replace (c + 4 + 4 - (c + 4))%nat with 4%nat by lia. replace (c + 8 + 4 - (c + 8))%nat with 4%nat by lia. replace (c + 20 - (c + 12))%nat with 8%nat by lia.
    replace (c + 4 + 4)%nat with (c + 8)%nat by lia. replace (c + 8 + 4)%nat with (c + 12)%nat by lia. reflexivity.
  - destruct (Nat.leb_spec (c + 4) (length S0)); [|eexists; reflexivity]. cbn [yield]. rewrite take_skipn by lia. destruct (Nat.leb_spec (c + 4 + 4) (length S0)); [|eexists; reflexivity].
    cbn [yield]. rewrite take_skipn by lia. destruct (Nat.leb_spec (c + 4 + 4 + 4) (length S0)); [|eexists; reflexivity]. cbn [yield]. rewrite take_skipn by lia.
    destruct (Nat.leb_spec (c + 4 + 4 + 4 + 8) (length S0)); [lia|]. eexists. reflexivity.
Qed.
Lemma rates_r f g s c : bytes s -> (c <= length s)%nat -> (length s - c < f)%nat -> (length s - c < g)%nat ->
  simr s (rates_loop f s c) (rates g (skipn c s)).
Proof.
  intros Hs. revert g c. induction f as [|f IH]; intros g c Hc Hf Hg; [lia|]. destruct g as [|g]; [lia|]. cbn [rates_loop rates].
  rewrite slice_from_ok by exact Hc. cbn [bind]. pose proof (rate_dec _ (bytes_skipn c _ Hs)) as H.
  destruct (RateMm_ (skipn c s)) as [[x r]|].
  - rewrite H. unfold ApnRateControlStatusMM_size. set (n := (24 + length (utf8 (rm_apn x)))%nat) in *. rewrite skipn_length.
    destruct (Nat.leb_spec n (length s - c)).
    + rewrite skipn_skipn'. destruct (IH g (c + n)%nat) as [H1 H2]; [lia|lia|lia|]. clearbody n.
      destruct (rates_loop f s (c + n)) as [[l c1]| | |]; destruct (rates g (skipn (c + n) s)) as [[l' q]|]; try contradiction H1; cbn [bind].
      * destruct H1 as [<- ->]. apply simr_ok. exact (H2 _ _ eq_refl).
      * apply simr_err.
      * apply simr_panic.
      * split; [exact I|discriminate].
    + destruct f; cbn [rates_loop]; [split; [exact I|discriminate]|]. unfold slice_from. rewrite (proj2 (Nat.leb_gt _ _)) by lia. apply simr_panic.
  - destruct (rates_end (skipn c s)).
    + destruct H as [e ->]. apply simr_ok. exact Hc.
    + rewrite H. apply simr_panic.
Qed.
Lemma rates_at_r T s c : bytes s -> (c <= length s)%nat -> simr s (rates_at T s c) (rates_ (skipn c s)).
Proof.
  intros Hs Hc. unfold rates_at, rates_, at_. destruct (nth_error s c) as [l|] eqn:E.
  2: { rewrite (skipn_none _ _ E). apply simr_panic. }
  assert (c < length s)%nat by (apply nth_error_Some; congruence). rewrite (skipn_cons _ _ _ E) at 1. cbn [bind].
  destruct (l =? 0); [apply simr_ok; exact Hc|]. unfold need. rewrite skipn_length.
  replace (N.to_nat l <=? length s - S c)%nat with (c + 1 + N.to_nat l <=? length s)%nat
    by (destruct (Nat.leb_spec (c + 1 + N.to_nat l) (length s)); destruct (Nat.leb_spec (N.to_nat l) (length s - S c)); reflexivity || lia).
  destruct (Nat.leb_spec (c + 1 + N.to_nat l) (length s)); [|apply simr_err]. rewrite (Nat.add_1_r c).
  destruct (rates_r (S (length s)) (S (length s - S c)) s (S c) Hs ltac:(lia) ltac:(lia) ltac:(lia)) as [H1 H2].
  destruct (rates_loop _ s (S c)) as [[x c1]| | |]; destruct (rates _ _) as [[x' q]|]; try contradiction H1; cbn [bind].
  - destruct H1 as [<- ->]. apply simr_ok. exact (H2 _ _ eq_refl).
  - apply simr_err.
  - apply simr_panic.
  - split; [exact I|discriminate].
Qed.

(* a reader that takes at least [n] octets, and what the length checks in front of a decoder add *)
Definition eats {A} (n : nat) (p : reader A) := forall q a r, p q = Some (a, r) -> (length r + n <= length q)%nat.
Lemma eats_then {A B} n k (p : reader A) (f : A -> reader B) : eats n p -> (forall a, eats k (f a)) -> eats (n + k) (andthen p f).
Proof. intros Hp Hf q b r H. apply some_of in H as (a & q1 & E1 & E2). apply Hp in E1. apply Hf in E2. lia. Qed.
Lemma eats_less {A} n k (p : reader A) : eats n p -> (k <= n)%nat -> eats k p.
Proof. intros H Hk q a r E. apply H in E. lia. Qed.
Lemma eats_take n : eats n (take n).
Proof. intros q a r H. apply take_len in H as (-> & H & _). rewrite skipn_length. lia. Qed.
Lemma eats_take1 : eats 1 take1.
Proof. intros [|x q] a r H; [discriminate H|]. injection H as _ <-. cbn [length]. lia. Qed.
Lemma eats_yield {A} (x : A) : eats 0 (yield x).
Proof. intros q a r [= _ <-]. lia. Qed.
Lemma eats_number n : eats n (number n).
Proof. unfold number. replace n with (n + 0)%nat at 1 by lia. apply eats_then; [apply eats_take|intro; apply eats_yield]. Qed.
Lemma eats_counted : eats 1 counted.
Proof. intros q a r H. apply counted_len in H as [-> H]. rewrite skipn_length. lia. Qed.
Lemma eats_refuse {A} n : eats n (refuse : reader A).
Proof. intros q a r H. discriminate H. Qed.
Lemma eats_if {A} n (c : bool) (p p' : reader A) : eats n p -> eats n p' -> eats n (if c then p else p').
Proof. destruct c; auto. Qed.
Lemma eats_0 {A} n (p : reader A) : eats n p -> eats 0 p.
Proof. intros H. apply (eats_less n); [exact H|lia]. Qed.
Ltac eats0 := repeat first [apply eats_yield | apply eats_refuse | apply eats_if | (apply (eats_then 0 0); [|intro]) | eapply eats_0, eats_take
  | eapply eats_0, eats_take1 | eapply eats_0, eats_number | eapply eats_0, eats_counted].
Lemma eats_times {A} n (p : reader A) : eats 0 p -> eats 0 (times n p).
Proof. intros Hp. induction n as [|n IH]; cbn [times]; [apply eats_yield|]. apply (eats_then 0 0); [exact Hp|]. intro. apply (eats_then 0 0); [exact IH|]. intro. apply eats_yield. Qed.
Lemma eats_upto5 {A} n (p : reader A) : eats 0 p -> eats 0 (upto5 n p).
Proof. intros Hp. unfold upto5. eats0. apply eats_times. exact Hp. Qed.
Lemma eats_drx c : eats 0 (drx_ c).
Proof. intros q a r. unfold drx_. destruct (c && _); intros H; apply (f_equal (fun o => match o with Some (_, r) => r | None => [] end)) in H; cbv beta iota in H; subst r; rewrite ?skipn_length; lia. Qed.
Lemma eats_nh c : eats 0 (next_hop_ c).
Proof. intros q a r. unfold next_hop_. destruct (c && _); [|intros [= _ <-]; lia]. intros H. revert q a r H. change (eats 0 (let! n := take 32 in let! m := take1 in yield (Some n, Some m))). eats0. Qed.
Lemma eats_set {A} c (p : reader A) : eats 0 p -> eats 0 (if_set c p).
Proof. intros Hp. unfold if_set. eats0. exact Hp. Qed.
Lemma eats_absent : eats 1 or_absent.
Proof.
  unfold or_absent. apply (eats_then 1 0); [apply eats_take1|]. intro n. apply eats_if; [|eats0].
  apply (eats_then 0 0); [|intro; apply eats_yield]. intros q a r. unfold pass. intros H; apply (f_equal (fun o => match o with Some (_, r) => r | None => [] end)) in H; cbv beta iota in H; subst r; rewrite ?skipn_length; lia.
Qed.
Lemma eats_none : eats 1 or_none.
Proof. unfold or_none. apply (eats_then 1 0); [apply eats_take1|]. intro n. eats0. Qed.
Lemma eats_as {A} (f : N -> A) : eats 1 (octet_as f).
Proof. unfold octet_as. apply (eats_then 1 0); [apply eats_take1|]. intro n. eats0. Qed.
Lemma eats_higher : eats 0 higher_.
Proof.
  unfold higher_. apply (eats_then 0 0); [eapply eats_0, eats_take1|]. intros n q a r. destruct (_ <=? _)%nat; [|intros H; apply (f_equal (fun o => match o with Some (_, r) => r | None => [] end)) in H; cbv beta iota in H; subst r; rewrite ?skipn_length; cbn [length]; lia]. destruct q as [|x q]; [discriminate|]. intros H; apply (f_equal (fun o => match o with Some (_, r) => r | None => [] end)) in H; cbv beta iota in H; subst r; rewrite ?skipn_length; cbn [length]; lia.
Qed.
Lemma eats_ext : eats 0 ext_access_.
Proof. intros [|x [|y q]] a r; unfold ext_access_; [discriminate| |]; (destruct (x =? 0); [intros H; apply (f_equal (fun o => match o with Some (_, r) => r | None => [] end)) in H; cbv beta iota in H; subst r; rewrite ?skipn_length; cbn [length]; lia|]); (destruct (x =? 1); [|discriminate]); [discriminate|intros H; apply (f_equal (fun o => match o with Some (_, r) => r | None => [] end)) in H; cbv beta iota in H; subst r; rewrite ?skipn_length; cbn [length]; lia]. Qed.
Lemma eats_iov c : eats 0 (iov_ c).
Proof. unfold iov_. apply (eats_then 0 0); [|intro; eats0]. intros q a r. unfold accept. destruct c; [intros H; apply (f_equal (fun o => match o with Some (_, r) => r | None => [] end)) in H; cbv beta iota in H; subst r; rewrite ?skipn_length; cbn [length]; lia|discriminate]. Qed.
Lemma eats_rates f : eats 0 (rates f).
Proof.
  induction f as [|f IH]; intros q a r; cbn [rates]; [discriminate|]. destruct (RateMm_ q) as [[x r0]|].
  - destruct (_ <=? _)%nat; [|discriminate]. destruct (rates f _) as [[l r1]|] eqn:E; [|discriminate]. intros H; apply (f_equal (fun o => match o with Some (_, r) => r | None => [] end)) in H; cbv beta iota in H; subst r.
    apply IH in E. rewrite skipn_length in E. lia.
  - destruct (rates_end q); [intros H; apply (f_equal (fun o => match o with Some (_, r) => r | None => [] end)) in H; cbv beta iota in H; subst r; rewrite ?skipn_length; cbn [length]; lia|discriminate].
Qed.
Lemma eats_rates_ : eats 0 rates_.
Proof.
  intros [|x q] a r; unfold rates_; [discriminate|]. destruct (x =? 0); [intros H; apply (f_equal (fun o => match o with Some (_, r) => r | None => [] end)) in H; cbv beta iota in H; subst r; rewrite ?skipn_length; cbn [length]; lia|]. destruct (_ <=? _)%nat; [|discriminate].
  destruct (rates _ q) as [[l r1]|] eqn:E; [|discriminate]. intros H; apply (f_equal (fun o => match o with Some (_, r) => r | None => [] end)) in H; cbv beta iota in H; subst r.
  apply eats_rates in E. cbn [length]. lia.
Qed.
Ltac eat := first
  [ (apply (eats_then 1); [first [apply eats_take1|apply eats_absent|apply eats_none|apply eats_as]|intro])
  | (apply eats_then; [first [apply eats_take|apply eats_number]|intro])
  | (apply (eats_then 0); [first [apply eats_higher|apply eats_ext|apply eats_iov|apply eats_rates_|apply eats_drx|apply eats_nh|(apply eats_upto5; unfold Quadruplet_, Quintuplet_, Triplet_; eats0; fail)|(apply eats_set; unfold AmbrMm_, OldEps_; eats0; fail)]|intro])
  | apply eats_yield ].
Lemma need_eats {A B} n N0 e t a b c q (p : reader A) (k : res B) F : eats n p -> (N0 <= 4 + n)%nat ->
  got k = wrap F (p q) -> got (need (t :: a :: b :: c :: q) N0 e k) = wrap F (p q).
Proof.
  intros Hp Hn H. rewrite got_need. destruct (Nat.leb_spec N0 (length (t :: a :: b :: c :: q))) as [Hl|Hl]; [exact H|].
  destruct (p q) as [[x r]|] eqn:E; [|reflexivity]. apply Hp in E. cbn [length] in Hl. lia.
Qed.

Lemma quad_count x : N.shiftr (N.land x 28) 2 = x / 4 mod 8.
Proof. rewrite N.shiftr_land, shiftr2. change (N.shiftr 28 2) with 7. apply land7. Qed.
Lemma top_flag x : byte x -> (N.shiftr x 7 =? 1) = bit_at x 7.
Proof. intros Hx. per_octet x. Qed.
Lemma security_eq x : byte x -> SecurityMode_of (x / 32) = security_of x.
Proof. intros Hx. per_octet x. Qed.
Lemma cipher_eq x : byte x -> CipherValues_of x = cipher_of x.
Proof. intros Hx. per_octet x. Qed.
Lemma cipher7_eq x : byte x -> CipherValues_of (x mod 8) = cipher_of (x mod 8).
Proof. intros Hx. per_octet x. Qed.
Lemma nas_int_eq x : byte x -> NasIntegrityProtectionValues_of (N.land (N.shiftr x 4) 7) = nas_integrity_of (x / 16 mod 8).
Proof. intros Hx. per_octet x. Qed.
Lemma nas_cipher_eq x : byte x -> NasCipherValues_of (N.land x 15) = nas_cipher_of (x mod 16).
Proof. intros Hx. per_octet x. Qed.
Lemma umts_int_eq y x : byte x -> umts_int (bit_at y 2) x = umts_integrity y x.
Proof. intros Hx. unfold umts_int, umts_integrity. destruct (bit_at y 2); [|reflexivity]. f_equal. per_octet x. Qed.
Lemma bytes_nth s n x : bytes s -> nth_error s n = Some x -> byte x.
Proof. intros Hs H. apply nth_error_In in H. revert x H. apply Forall_forall. exact Hs. Qed.
Ltac in_range := match goal with H : nth_error ?s ?n = Some _ |- _ => let K := fresh "L" in assert (K : (n < length s)%nat) by (apply nth_error_Some; rewrite H; discriminate) end.
Ltac mm := match goal with
  | |- got (bind (drx_at _ _ _) _) = _ => eapply step_r; [apply drx_r; assumption|intros ? ? ?]
  | |- got (bind (nh_at _ _ _) _) = _ => eapply step_r; [apply nh_r; assumption|intros [? ?] ? ?; cbv beta iota; cbn [fst snd]]
  | |- got (bind (ambr_at _ _ _ _) _) = _ => eapply step_r; [apply ambr_r; assumption|intros ? ? ?]
  | |- got (bind (old_at _ _ _ _) _) = _ => eapply step_r; [apply old_r; assumption|intros ? ? ?]
  | |- got (bind (cap_at _ _ _) _) = _ => eapply step_c; [apply cap_absent|intros ? ? _]
  | |- got (bind (optlv_at _ _ _) _) = _ => eapply step_r; [apply optlv_none|intros ? ? ?]
  | |- got (bind (access_at _ _) _) = _ => eapply step_r; [apply access_r|intros ? ? ?]
  | |- got (bind (higher_at _ _) _) = _ => eapply step_r; [apply higher_r|intros ? ? ?]
  | |- got (bind (ext_access_at _ _ _) _) = _ => eapply step_r; [apply ext_access_r; assumption|intros ? ? ?]
  | |- got (bind (rates_at _ _ _) _) = _ => eapply step_r; [apply rates_at_r; assumption|intros ? ? ?]
  | |- got (bind (iov_at _ _ _ _) _) = _ => eapply step_r; [apply iov_r; assumption|intros ? ? ?]
  | |- got (bind (trips_at _ _ _) _) = _ => eapply step_r; [apply trips_r; assumption|intros ? ? ?]
  | |- got (bind (auth_at AuthQuadruplet_dec _ _ _ _ _) _) = _ => eapply step_r; [apply auth_r; [apply Quadruplet_parses|assumption|assumption]|intros ? ? ?]
  | |- got (bind (auth_at AuthQuintuplet_dec _ _ _ _ _) _) = _ => eapply step_r; [apply auth_r; [apply Quintuplet_parses|assumption|assumption]|intros ? ? ?]
  end.
Ltac x3 Hb := let x := fresh "x" in let y := fresh "y" in let z := fresh "z" in let H4 := fresh "H4" in let H5 := fresh "H5" in let H6 := fresh "H6" in
  apply step_1; intros x H4; apply step_1; intros y H5; apply step_1; intros z H6; in_range;
  pose proof (bytes_nth _ _ _ Hb H4); pose proof (bytes_nth _ _ _ Hb H5); pose proof (bytes_nth _ _ _ Hb H6);
  clear H4 H5; rewrite ?top_flag, ?quad_count, ?nas_int_eq, ?nas_cipher_eq, ?land7, ?shiftr5 by assumption; bits; rewrite ?security_eq, ?cipher7_eq, ?cipher_eq, ?umts_int_eq by assumption.

Lemma MmEps_eq s : bytes s -> got (MmContextEpsSecurityContextQuadruplets_unmarshal Debug s) = MmEps_reads s.
Proof.
  intros Hb. unfold MmContextEpsSecurityContextQuadruplets_unmarshal, MmEps_reads. hd s. rewrite open_wrap.
  eapply need_eats; [repeat eat|cbn [Nat.add]; lia|]. rewrite got_hdr4. set (S0 := t :: a :: b :: c :: s) in *. change s with (skipn 4 S0). clearbody S0. x3 Hb.
  apply step_be; [lia|]. intros L1. apply (step_be S0 10 3); [lia|]. intros L2. apply (step_s S0 13 32); [lia|]. intros L3. change (13 + 32)%nat with 45%nat in *.
  repeat mm. unfold ensct_at. rewrite (proj2 (Nat.leb_le _ _)) by assumption. unfold octet_as, at_, andthen.
  match goal with |- context [nth_error S0 ?n] => destruct (nth_error S0 n) as [w|] eqn:E end.
  - rewrite (skipn_cons _ _ _ E). cbn [bind take1 yield]. rewrite land3. reflexivity.
  - rewrite (skipn_none _ _ E). reflexivity.
Qed.
Lemma MmGsmCq_eq s : bytes s -> got (MmContextGsmKeyCipherQuintuplets_unmarshal Debug s) = MmGsmCq_reads s.
Proof.
  intros Hb. unfold MmContextGsmKeyCipherQuintuplets_unmarshal, MmGsmCq_reads. hd s. rewrite open_wrap.
  eapply need_eats; [repeat eat|cbn [Nat.add]; lia|]. rewrite got_hdr4. set (S0 := t :: a :: b :: c :: s) in *. change s with (skipn 4 S0). clearbody S0. x3 Hb.
  apply step_be; [lia|]. intros L1. change (7 + 8)%nat with 15%nat in *. repeat mm. reflexivity.
Qed.
Lemma MmGsmT_eq s : bytes s -> got (MmContextGsmKeyTriplets_unmarshal Debug s) = MmGsmT_reads s.
Proof.
  intros Hb. unfold MmContextGsmKeyTriplets_unmarshal, MmGsmT_reads. hd s. rewrite open_wrap.
  eapply need_eats; [repeat eat|cbn [Nat.add]; lia|]. rewrite got_hdr4. set (S0 := t :: a :: b :: c :: s) in *. change s with (skipn 4 S0). clearbody S0. x3 Hb.
  apply step_be; [lia|]. intros L1. change (7 + 8)%nat with 15%nat in *. repeat mm. reflexivity.
Qed.
Lemma MmUmtsCq_eq s : bytes s -> got (MmContextUmtsKeyCipherQuintuplets_unmarshal Debug s) = MmUmtsCq_reads s.
Proof.
  intros Hb. unfold MmContextUmtsKeyCipherQuintuplets_unmarshal, MmUmtsCq_reads. hd s. rewrite open_wrap.
  eapply need_eats; [repeat eat|cbn [Nat.add]; lia|]. rewrite got_hdr4. set (S0 := t :: a :: b :: c :: s) in *. change s with (skipn 4 S0). clearbody S0. x3 Hb.
  apply (step_s S0 7 16); [lia|]. intros L1. apply (step_s S0 23 16); [lia|]. intros L2. change (23 + 16)%nat with 39%nat in *. repeat mm. reflexivity.
Qed.
Lemma MmUmtsQ_eq s : bytes s -> got (MmContextUmtsKeyQuintuplets_unmarshal Debug s) = MmUmtsQ_reads s.
Proof.
  intros Hb. unfold MmContextUmtsKeyQuintuplets_unmarshal, MmUmtsQ_reads. hd s. rewrite open_wrap.
  eapply need_eats; [repeat eat|cbn [Nat.add]; lia|]. rewrite got_hdr4. set (S0 := t :: a :: b :: c :: s) in *. change s with (skipn 4 S0). clearbody S0. x3 Hb.
  apply (step_s S0 7 16); [lia|]. intros L1. apply (step_s S0 23 16); [lia|]. intros L2. change (23 + 16)%nat with 39%nat in *. repeat mm. reflexivity.
Qed.
Lemma MmUmtsQq_eq s : bytes s -> got (MmContextUmtsKeyQuadrupletsQuintuplets_unmarshal Debug s) = MmUmtsQq_reads s.
Proof.
  intros Hb. unfold MmContextUmtsKeyQuadrupletsQuintuplets_unmarshal, MmUmtsQq_reads. hd s. rewrite open_wrap.
  eapply need_eats; [repeat eat|cbn [Nat.add]; lia|]. rewrite got_hdr4. set (S0 := t :: a :: b :: c :: s) in *. change s with (skipn 4 S0). clearbody S0.
  apply step_1; intros x H4. apply step_1; intros y H5. pose proof (bytes_nth _ _ _ Hb H4). clear H4. rewrite ?quad_count, ?land7, ?shiftr5. bits. rewrite security_eq by assumption.
  unfold andthen at 1. destruct (nth_error S0 6) as [z|] eqn:H6.
  2: { rewrite (skipn_none _ _ H6). apply nth_error_None in H6. unfold slice. rewrite (proj2 (Nat.leb_gt 23 _)) by lia. reflexivity. }
  rewrite (skipn_cons _ _ _ H6). cbn [take1]. in_range.
  apply (step_s S0 7 16); [lia|]. intros L1. apply (step_s S0 23 16); [lia|]. intros L2. change (23 + 16)%nat with 39%nat in *. repeat mm. reflexivity.
Qed.
