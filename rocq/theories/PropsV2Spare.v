(* PropsV2Spare.v - C87 (GTPv2-C): bits and octets of the header that carry nothing are ignored, and what the piggybacking flag does. *)
From Verif Require Import Base BaseFacts V2Base V2Msg V2MsgTables V2MsgSpec V2MsgLayouts.
Local Open Scope N_scope.
Notation length := List.length.

(* --- specification --------------------------------------------------------------------------------------------------- *)
(* TS 29.274 5.1 and 5.5: the first octet is version (bits 7 to 5), P (4), T (3), MP (2) and two spare bits. Without T the header has
   eight octets, the last of which is spare; with T it has twelve, and in the last one the high four bits are a priority if MP is set
   and the rest is spare. Without T, MP says nothing. *)
Definition spare_only (b b' : list N) : Prop :=
  exists f f' p p' rest,
  (N.testbit f 3 = false /\ f / 8 = f' / 8 /\ exists six, length six = 6%nat /\ b = f :: six ++ p :: rest /\ b' = f' :: six ++ p' :: rest) \/
  (N.testbit f 3 = true /\ f / 4 = f' / 4 /\ (N.testbit f 2 = true -> p / 16 = p' / 16) /\
   exists ten, length ten = 10%nat /\ b = f :: ten ++ p :: rest /\ b' = f' :: ten ++ p' :: rest).
(* The message begins where its header ends: T is set for the kinds that have a TEID. *)
Definition header_fits (d : message_def) (b : list N) : Prop :=
  match md_start d with Some s => N.testbit (nth 0 b 0) 3 = true -> (12 <= s)%nat | None => True end.
(* the packet with P reversed, and the message with the piggybacking flag [p] *)
Definition flipped (b : list N) : list N := match b with f :: r => N.lxor f 16 :: r | [] => [] end.
Definition with_p (p : bool) (x : message) : message :=
  mkMsg (mkHdr2 (h2_msgtype (msg_header x)) p (h2_prio (msg_header x)) (h2_length (msg_header x)) (h2_teid (msg_header x)) (h2_sqn (msg_header x))) (msg_fields x).
(* there is nothing in the packet after the message *)
Definition alone (b : list N) : Prop := length b = (4 + N.to_nat (256 * nth 2 b 0%N + nth 3 b 0%N)%N)%nat.

(* --- proofs ---------------------------------------------------------------------------------------------------------- *)
Lemma starts : forallb (fun p => match md_start (fst p) with Some s => (8 <=? s)%nat | None => true end) gtpv2_messages = true.
Proof. vm_compute. reflexivity. Qed.
Lemma starts_late d L s : In (d, L) gtpv2_messages -> md_start d = Some s -> (8 <= s)%nat.
Proof. intros I E. pose proof (proj1 (forallb_forall _ _) starts _ I) as H. cbn [fst] in H. rewrite E in H. apply Nat.leb_le. exact H. Qed.
Lemma high_bits f f' k n : f / 2 ^ k = f' / 2 ^ k -> k <= n -> N.shiftr f n = N.shiftr f' n.
Proof. intros H L. replace n with (k + (n - k)) by lia. rewrite <- !N.shiftr_shiftr, !N.shiftr_div_pow2 with (n := k), H. reflexivity. Qed.
Lemma flag_1 f k : N.land (N.shiftr f k) 1 = N.b2n (N.testbit f k).
Proof. change 1 with (N.ones 1). rewrite N.land_ones. change (2 ^ 1) with 2. rewrite <- N.bit0_mod, N.shiftr_spec'. reflexivity. Qed.
Lemma b2n_0 c : (N.b2n c =? 0) = negb c. Proof. destruct c; reflexivity. Qed.
Lemma six_is (l : list N) : length l = 6%nat -> exists a b c d e f, l = [a; b; c; d; e; f].
Proof. intros H. do 6 (destruct l as [|? l]; [discriminate H|]). destruct l; [eauto 10|discriminate H]. Qed.
Lemma ten_is (l : list N) : length l = 10%nat -> exists a b c d e f g h i j, l = [a; b; c; d; e; f; g; h; i; j].
Proof. intros H. do 10 (destruct l as [|? l]; [discriminate H|]). destruct l; [eauto 12|discriminate H]. Qed.
Lemma h2_spare b b' : spare_only b b' -> h2_unmarshal b = h2_unmarshal b'.
Proof.
  intros (f & f' & p & p' & r & [(T & F & l & L & -> & ->)|(T & F & P & l & L & -> & ->)]).
  - destruct (six_is l L) as (a0 & a1 & a2 & a3 & a4 & a5 & ->). unfold h2_unmarshal. cbn [app length Nat.leb at_ nth_error bind MIN_HEADER_LENGTH]. change 8 with (2 ^ 3) in F.
    rewrite <- (high_bits f f' 3 5 F), <- (high_bits f f' 3 3 F), <- (high_bits f f' 3 4 F) by lia. rewrite !flag_1, !b2n_0, T. reflexivity.
  - destruct (ten_is l L) as (a0 & a1 & a2 & a3 & a4 & a5 & a6 & a7 & a8 & a9 & ->). unfold h2_unmarshal. cbn [app length Nat.leb at_ nth_error bind MIN_HEADER_LENGTH MAX_HEADER_LENGTH]. change 4 with (2 ^ 2) in F at 1 2.
    rewrite <- (high_bits f f' 2 5 F), <- (high_bits f f' 2 3 F), <- (high_bits f f' 2 4 F), <- (high_bits f f' 2 2 F) by lia. rewrite !flag_1, !b2n_0, T. cbn [negb].
    destruct (N.testbit f 2) eqn:M; cbn [negb]; [|reflexivity]. rewrite !N.shiftr_div_pow2. change (2 ^ 4) with 16. rewrite (P eq_refl). reflexivity.
Qed.
Lemma skipn_add {A} n k (b : list A) : skipn (n + k) b = skipn k (skipn n b).
Proof. revert b. induction n as [|n IH]; intros b; [reflexivity|]. destruct b; [cbn; rewrite skipn_nil; reflexivity|]. cbn. apply IH. Qed.
Lemma slice_after n b b' i j : length b = length b' -> skipn n b = skipn n b' -> (n <= i)%nat -> slice (E:=GTPV2Error) b i j = slice b' i j.
Proof. intros L S H. unfold slice. replace i with (n + (i - n))%nat by lia. rewrite !skipn_add, S, L. reflexivity. Qed.

(* --- theorems -------------------------------------------------------------------------------------------------------- *)
Theorem C87_gtpv2_partial : forall d L m b b', In (d, L) gtpv2_messages -> spare_only b b' -> header_fits d b -> msg_unmarshal d m b = msg_unmarshal d m b'.
Proof.
  intros d L m b b' I H F. unfold msg_unmarshal. rewrite (h2_spare b b' H). destruct (h2_unmarshal b') as [h| | |]; cbn [bind]; try reflexivity. destruct (negb _); [reflexivity|].
  unfold header_fits in F. destruct (md_start d) as [s|] eqn:E; [|reflexivity]. pose proof (starts_late d L s I E) as S8.
  assert (K : length b = length b' /\ exists n, (n <= s)%nat /\ skipn n b = skipn n b').
  { destruct H as (f & f' & p & p' & r & [(T & _ & l & Q & -> & ->)|(T & _ & _ & l & Q & -> & ->)]).
    - destruct (six_is l Q) as (a0 & a1 & a2 & a3 & a4 & a5 & ->). split; [reflexivity|]. exists 8%nat. split; [exact S8|reflexivity].
    - destruct (ten_is l Q) as (a0 & a1 & a2 & a3 & a4 & a5 & a6 & a7 & a8 & a9 & ->). split; [reflexivity|]. exists 12%nat. split; [apply F; exact T|reflexivity]. }
  destruct K as (LE & n & N1 & N2). rewrite LE. destruct (_ <=? _)%nat; [|reflexivity]. rewrite (slice_after n b b' s _ LE N2 N1). reflexivity.
Qed.
(* An echo message with T set, which it should not have, is read from the ninth octet on all the same: the sequence number is taken for
   an element, and the spare octet for its instance. *)
Definition echo_with_teid (p : N) : list N := [72; 1; 0; 9; 0; 0; 0; 0; 3; 0; 1; p; 42].
Theorem C87_gtpv2_refuted : forall m, spare_only (echo_with_teid 0) (echo_with_teid 1) /\ ~ header_fits md_echoreq (echo_with_teid 0) /\
  (exists x, msg_unmarshal md_echoreq m (echo_with_teid 0) = Ok x) /\ (forall x, msg_unmarshal md_echoreq m (echo_with_teid 1) <> Ok x).
Proof.
  intros m. split; [|split; [|split]].
  - exists 72, 72, 0, 1, [42]. right. split; [reflexivity|]. split; [reflexivity|]. split; [discriminate|]. exists [1; 0; 9; 0; 0; 0; 0; 3; 0; 1]. repeat split; reflexivity.
  - intros H. specialize (H eq_refl). cbv in H. lia.
  - destruct m; eexists; vm_compute; reflexivity.
  - intros x H. destruct m; vm_compute in H; discriminate H.
Qed.
(* The piggybacking flag is bit 4 of the first octet. It changes nothing but the flag itself ... *)
Lemma flip_bits f i : N.testbit (N.lxor f 16) i = if i =? 4 then negb (N.testbit f i) else N.testbit f i.
Proof.
  rewrite N.lxor_spec. change 16 with (2 ^ 4). rewrite N.pow2_bits_eqb. destruct (N.eqb_spec i 4) as [->|Q].
  - rewrite N.eqb_refl. destruct (N.testbit f 4); reflexivity.
  - rewrite (proj2 (N.eqb_neq 4 i)) by congruence. apply xorb_false_r.
Qed.
Lemma flip_shift f n : 4 < n -> N.shiftr (N.lxor f 16) n = N.shiftr f n.
Proof. intros H. apply N.bits_inj. intros i. rewrite !N.shiftr_spec', flip_bits. rewrite (proj2 (N.eqb_neq (i + n) 4)) by lia. reflexivity. Qed.
Definition flip_h (h : Gtpv2Header) : Gtpv2Header := mkHdr2 (h2_msgtype h) (negb (h2_piggyback h)) (h2_prio h) (h2_length h) (h2_teid h) (h2_sqn h).
Lemma h2_flip b : h2_unmarshal (flipped b) = match h2_unmarshal b with Ok h => Ok (flip_h h) | Err e => Err e | Panic => Panic | Diverge => Diverge end.
Proof.
  do 8 (destruct b as [|? b]; [reflexivity|]). cbn [flipped]. unfold h2_unmarshal. cbn [length Nat.leb at_ nth_error bind MIN_HEADER_LENGTH MAX_HEADER_LENGTH].
  rewrite !flag_1, !b2n_0, !flip_bits, (flip_shift n 5) by lia. change (3 =? 4) with false. change (4 =? 4) with true. change (2 =? 4) with false. cbv iota. rewrite !negb_involutive. destruct (negb (_ =? 2)); [reflexivity|]. destruct (N.testbit n 3); cbn [negb].
  - do 4 (destruct b as [|? b]; [reflexivity|]). cbn [length Nat.leb at_ nth_error bind]. cbv zeta. destruct (_ <? _); reflexivity.
  - cbv zeta. destruct (_ =? _); [reflexivity|]. destruct (_ <? _); reflexivity.
Qed.
Lemma h2_p f r h : h2_unmarshal (f :: r) = Ok h -> h2_piggyback h = N.testbit f 4.
Proof.
  intros H. do 7 (destruct r as [|? r]; [discriminate H|]). unfold h2_unmarshal in H. cbn [length Nat.leb at_ nth_error bind MIN_HEADER_LENGTH MAX_HEADER_LENGTH] in H.
  rewrite !flag_1, !b2n_0, !negb_involutive in H. destruct (negb (_ =? 2)); [discriminate H|]. destruct (N.testbit f 3); cbn [negb] in H.
  - do 4 (destruct r as [|? r]; [discriminate H|]). cbn [length Nat.leb at_ nth_error bind] in H. cbv zeta in H. destruct (_ <? _); [discriminate H|]. apply Ok_inj in H. subst h. reflexivity.
  - cbv zeta in H. destruct (_ =? _); [discriminate H|]. destruct (_ <? _); [discriminate H|]. apply Ok_inj in H. subst h. reflexivity.
Qed.
Theorem C87_piggyback : forall d L m b, In (d, L) gtpv2_messages ->
  msg_unmarshal d m (flipped b) = match msg_unmarshal d m b with Ok x => Ok (with_p (negb (h2_piggyback (msg_header x))) x) | r => r end /\
  (forall x, msg_unmarshal d m b = Ok x -> h2_piggyback (msg_header x) = N.testbit (nth 0 b 0) 4).
Proof.
  intros d L m b I. split.
  - unfold msg_unmarshal. rewrite h2_flip. destruct (h2_unmarshal b) as [h| | |] eqn:E; cbn [bind]; try reflexivity. change (h2_msgtype (flip_h h)) with (h2_msgtype h). change (h2_length (flip_h h)) with (h2_length h).
    destruct (negb _); [reflexivity|]. destruct (md_start d) as [s|] eqn:Q; [|reflexivity]. pose proof (starts_late d L s I Q) as S8. cbv zeta.
    assert (LE : length (flipped b) = length b) by (destruct b; reflexivity). rewrite LE. destruct (_ <=? _)%nat; [|reflexivity].
    rewrite (slice_after 1 (flipped b) b s _ LE) by (try lia; destruct b; reflexivity). destruct (slice b s _) as [body| | |]; cbn [bind]; try reflexivity.
    destruct (decoder m body) as [l| | |]; cbn [bind]; try reflexivity. destruct (fromvec d l) as [x| | |]; reflexivity.
  - intros x H. unfold msg_unmarshal in H. destruct b as [|f r]; [discriminate H|]. destruct (h2_unmarshal (f :: r)) as [h| | |] eqn:E; try discriminate H. cbn [bind] in H. pose proof (h2_p f r h E) as P.
    destruct (negb _); [discriminate H|]. destruct (md_start d) as [s|]; [|apply Ok_inj in H; subst x; exact P]. cbv zeta in H. destruct (_ <=? _)%nat; [|discriminate H].
    destruct (slice _ _ _) as [body| | |]; try discriminate H. cbn [bind] in H. destruct (decoder m body) as [l| | |]; try discriminate H. cbn [bind] in H. destruct (fromvec d l) as [y| | |]; try discriminate H. apply Ok_inj in H. subst x. exact P.
Qed.
(* ... so it does not say whether a second message follows: for every packet that is accepted, with nothing after the message or with
   anything after it, the same packet with the flag reversed is accepted too. *)
Theorem C87_piggyback_refuted : forall d L m b, In (d, L) gtpv2_messages -> alone b -> (exists x, msg_unmarshal d m b = Ok x) ->
  exists b' x, alone b' /\ N.testbit (nth 0 b' 0) 4 = true /\ msg_unmarshal d m b' = Ok x /\ h2_piggyback (msg_header x) = true.
Proof.
  intros d L m b I A (x & H). destruct (C87_piggyback d L m b I) as (F & P). rewrite H in F. specialize (P x H). destruct (N.testbit (nth 0 b 0) 4) eqn:T.
  - exists b, x. repeat split; assumption.
  - exists (flipped b), (with_p (negb (h2_piggyback (msg_header x))) x). split; [|split; [|split]].
    + unfold alone in *. destruct b as [|f r]; [exact A|]. exact A.
    + destruct b as [|f r]; [discriminate H|]. cbn [flipped nth] in *. rewrite flip_bits. change (4 =? 4) with true. cbv iota. rewrite T. reflexivity.
    + exact F.
    + cbn. rewrite P. reflexivity.
Qed.

(* --- the hypotheses are met ------------------------------------------------------------------------------------------ *)
Definition echo_8 (f p : N) : list N := [f; 1; 0; 9; 0; 0; 7; p; 3; 0; 1; 0; 42].
Definition csr_12 (f p : N) : list N := [f; 37; 0; 14; 0; 0; 0; 1; 0; 0; 7; p; 2; 0; 2; 0; 16; 0].
Example C87_v2_example :
  In (md_echoreq, ly_echoreq) gtpv2_messages /\ spare_only (echo_8 64 0) (echo_8 71 255) /\ header_fits md_echoreq (echo_8 64 0) /\ alone (echo_8 64 0) /\
  msg_unmarshal md_echoreq Debug (echo_8 64 0) = msg_unmarshal md_echoreq Debug (echo_8 71 255) /\ (exists x, msg_unmarshal md_echoreq Debug (echo_8 64 0) = Ok x) /\
  flipped (echo_8 64 0) = echo_8 80 0 /\ (exists x, msg_unmarshal md_echoreq Debug (echo_8 80 0) = Ok x /\ h2_piggyback (msg_header x) = true) /\
  spare_only (csr_12 76 160) (csr_12 79 175) /\ header_fits md_deletesessionresp (csr_12 76 160) /\ (exists x, msg_unmarshal md_deletesessionresp Debug (csr_12 76 160) = Ok x).
Proof.
  split; [unfold gtpv2_messages; cbn [In]; tauto|]. split; [exists 64, 71, 0, 255, [3; 0; 1; 0; 42]; left; split; [reflexivity|]; split; [reflexivity|]; exists [1; 0; 9; 0; 0; 7]; repeat split; reflexivity|].
  split; [intros T; discriminate T|]. split; [reflexivity|]. split; [vm_compute; reflexivity|]. split; [eexists; vm_compute; reflexivity|]. split; [reflexivity|].
  split; [eexists; split; vm_compute; reflexivity|]. split; [exists 76, 79, 160, 175, [2; 0; 2; 0; 16; 0]; right; split; [reflexivity|]; split; [reflexivity|]; split; [reflexivity|]; exists [37; 0; 14; 0; 0; 0; 1; 0; 0; 7]; repeat split; reflexivity|].
  split; [intros _; cbv; lia|]. eexists; vm_compute; reflexivity.
Qed.
Print Assumptions C87_gtpv2_partial.
Print Assumptions C87_gtpv2_refuted.
Print Assumptions C87_piggyback.
Print Assumptions C87_piggyback_refuted.
