(* V2ReadFacts.v - the element decoders against the grammar of V2ReadSpec.v: frames, helpers and the
   elements of V2IeA.v. *)
From Verif Require Import BaseFacts Digits Labels V2ReadSpec Octets.
Local Open Scope N_scope.

Definition got {E A} (r : Base.res E A) : option A := match r with Ok a => Some a | _ => None end.
Definition wrap {A B} (F : A -> B) (o : option (A * list N)) : option B :=
  match o with Some (v, _) => Some (F v) | None => None end.

(* ------------------------------------------------------------------------- *)
(* Numbers and bits *)

Lemma be_list_base l : be_list 0 l = base256 l.
Proof.
  unfold base256. generalize 0. induction l as [|x l IH]; intros a; [reflexivity|]. cbn [be_list fold_left].
  rewrite IH. f_equal. lia.
Qed.
Lemma be16_eq a b : be16 a b = 256 * a + b. Proof. unfold be16. lia. Qed.
Lemma land1 x : N.land x 1 = x mod 2. Proof. exact (N.land_ones x 1). Qed.
Lemma land3 x : N.land x 3 = x mod 4. Proof. exact (N.land_ones x 2). Qed.
Lemma land7 x : N.land x 7 = x mod 8. Proof. exact (N.land_ones x 3). Qed.
Lemma land15 x : N.land x 15 = x mod 16. Proof. exact (N.land_ones x 4). Qed.
Lemma land31 x : N.land x 31 = x mod 32. Proof. exact (N.land_ones x 5). Qed.
Lemma land63 x : N.land x 63 = x mod 64. Proof. exact (N.land_ones x 6). Qed.
Lemma land127 x : N.land x 127 = x mod 128. Proof. exact (N.land_ones x 7). Qed.
Lemma shiftr1 x : N.shiftr x 1 = x / 2. Proof. exact (N.shiftr_div_pow2 x 1). Qed.
Lemma shiftr2 x : N.shiftr x 2 = x / 4. Proof. exact (N.shiftr_div_pow2 x 2). Qed.
Lemma shiftr3 x : N.shiftr x 3 = x / 8. Proof. exact (N.shiftr_div_pow2 x 3). Qed.
Lemma shiftr4 x : N.shiftr x 4 = x / 16. Proof. exact (N.shiftr_div_pow2 x 4). Qed.
Lemma shiftr5 x : N.shiftr x 5 = x / 32. Proof. exact (N.shiftr_div_pow2 x 5). Qed.
Lemma shiftr6 x : N.shiftr x 6 = x / 64. Proof. exact (N.shiftr_div_pow2 x 6). Qed.
Lemma shiftr7 x : N.shiftr x 7 = x / 128. Proof. exact (N.shiftr_div_pow2 x 7). Qed.
Ltac arith := rewrite ?be_list_base, ?be16_eq, ?land1, ?land3, ?land7, ?land15, ?land31, ?land63, ?land127,
  ?shiftr1, ?shiftr2, ?shiftr3, ?shiftr4, ?shiftr5, ?shiftr6, ?shiftr7.

Lemma testbit_bit_at x n : N.testbit x n = bit_at x n.
Proof.
  unfold bit_at. destruct (N.testbit x n) eqn:E; symmetry.
  - apply N.eqb_eq. apply N.testbit_true in E. exact E.
  - apply N.eqb_neq. apply N.testbit_false in E. rewrite E. discriminate.
Qed.
Lemma bit_pow x n : bit x (2 ^ n) = bit_at x n.
Proof.
  rewrite <- testbit_bit_at. unfold bit. destruct (N.testbit x n) eqn:E.
  - apply N.eqb_eq. apply N.bits_inj. intros k. rewrite N.land_spec. rewrite N.pow2_bits_eqb.
    destruct (N.eqb_spec n k) as [<-|]; [rewrite E; reflexivity|apply andb_false_r].
  - apply N.eqb_neq. intros H. assert (N.testbit (N.land x (2 ^ n)) n = true) as T
      by (rewrite H; rewrite N.pow2_bits_eqb; apply N.eqb_refl).
    rewrite N.land_spec, E in T. discriminate.
Qed.
Lemma bit_1 x : bit x 1 = bit_at x 0. Proof. exact (bit_pow x 0). Qed.
Lemma bit_2 x : bit x 2 = bit_at x 1. Proof. exact (bit_pow x 1). Qed.
Lemma bit_4 x : bit x 4 = bit_at x 2. Proof. exact (bit_pow x 2). Qed.
Lemma bit_8 x : bit x 8 = bit_at x 3. Proof. exact (bit_pow x 3). Qed.
Lemma bit_16 x : bit x 16 = bit_at x 4. Proof. exact (bit_pow x 4). Qed.
Lemma bit_32 x : bit x 32 = bit_at x 5. Proof. exact (bit_pow x 5). Qed.
Lemma bit_64 x : bit x 64 = bit_at x 6. Proof. exact (bit_pow x 6). Qed.
Lemma bit_128 x : bit x 128 = bit_at x 7. Proof. exact (bit_pow x 7). Qed.
Ltac bits := rewrite ?bit_1, ?bit_2, ?bit_4, ?bit_8, ?bit_16, ?bit_32, ?bit_64, ?bit_128.

Lemma by_byte {A} (f g : N -> A) : map f (upto 256) = map g (upto 256) -> forall x, byte x -> f x = g x.
Proof.
  intros H x Hx. assert (Hi : In x (upto 256)) by (apply in_upto; exact Hx). revert H Hi.
  generalize (upto 256). intros l. induction l as [|y l IH]; cbn [map In]; [easy|].
  intros [= H1 H2] [->|Hi]; [exact H1|apply IH; assumption].
Qed.
(* an equation in one octet, by all its values *)
Ltac per_octet x := pattern x; match goal with |- (fun y => @?f y = @?g y) x => apply (by_byte f g); [vm_compute; reflexivity|assumption] end.

(* ------------------------------------------------------------------------- *)
(* Digits, names, addresses *)

Lemma filter_from_digit l : filter_map from_digit l = map (fun d => 48 + d) (decimals l).
Proof.
  unfold decimals. induction l as [|d l IH]; [reflexivity|]. cbn [filter_map filter]. unfold from_digit at 1.
  destruct (d <? 10); cbn [map]; rewrite IH; reflexivity.
Qed.
Lemma tbcd_number o : tbcd_decode o = number_of o.
Proof.
  unfold tbcd_decode, number_of, halves. rewrite filter_from_digit. do 3 f_equal. apply map_ext. intros x.
  rewrite land15, shiftr4. reflexivity.
Qed.
Lemma parse_decimal l : parse_dec (filter_map from_digit l) = decimal l.
Proof.
  rewrite filter_from_digit. unfold parse_dec, decimal. generalize 0 at 1 2. induction (decimals l) as [|d r IH]; intros a; [reflexivity|].
  cbn [map fold_left]. rewrite IH. f_equal. lia.
Qed.
Lemma plmn_decoded {E} a b c r : @mcc_mnc_decode E (a :: b :: c :: r) =
  Ok (p_mcc (plmn_of a b c), p_mnc (plmn_of a b c), p_three (plmn_of a b c)).
Proof.
  unfold mcc_mnc_decode. unfold at_. cbn [nth_error bind]. arith. rewrite !parse_decimal.
  unfold plmn_of. destruct (b / 16 =? 15); reflexivity.
Qed.
Lemma labels_got {E} f o :
  got (@labels_loop E f o) = option_map (fun ws => concat (map (fun w => w ++ [46]) ws)) (labels_in f o).
Proof.
  revert o. induction f as [|f IH]; intros [|n r]; try reflexivity. cbn [labels_loop labels_in].
  destruct (N.to_nat n <=? length r)%nat; [|reflexivity]. specialize (IH (skipn (N.to_nat n) r)).
  destruct (labels_loop f _); destruct (labels_in f _); try discriminate IH; try reflexivity. injection IH as ->.
  cbn [bind got option_map map concat]. rewrite <- app_assoc. reflexivity.
Qed.
Lemma joined_dotted ws : removelast (concat (map (fun w => w ++ [46]) ws)) = dotted ws.
Proof.
  induction ws as [|w [|u ws] IH]; [reflexivity|cbn [map concat dotted]; rewrite app_nil_r; apply removelast_last|].
  change (dotted (w :: u :: ws)) with (w ++ 46 :: dotted (u :: ws)). rewrite <- IH.
  change (concat (map (fun w0 => w0 ++ [46]) (w :: u :: ws))) with ((w ++ [46]) ++ concat (map (fun w0 => w0 ++ [46]) (u :: ws))).
  rewrite removelast_app; [rewrite <- app_assoc; reflexivity|]. cbn [map concat]. destruct u; discriminate.
Qed.
Lemma name_got {E} o : got (@labels_decode E o) = name_in o.
Proof.
  unfold labels_decode, name_in. pose proof (@labels_got E (length o) o) as H.
  destruct (labels_loop _ o); destruct (labels_in _ o); try discriminate H; try reflexivity. injection H as ->.
  cbn [bind got option_map]. f_equal. apply joined_dotted.
Qed.

(* ------------------------------------------------------------------------- *)
(* Frames *)

Lemma got_bind {E A B} (r : Base.res E A) (k : A -> Base.res E B) :
  got (bind r k) = match got r with Some a => got (k a) | None => None end.
Proof. destruct r; reflexivity. Qed.
Lemma got_need {A} s n e (k : res A) : got (need s n e k) = if (n <=? length s)%nat then got k else None.
Proof. unfold need. destruct (n <=? length s)%nat; reflexivity. Qed.
Lemma got_hdr4 {A} t a b c q (k : N -> N -> res A) : got (hdr4 (t :: a :: b :: c :: q) k) = got (k (256 * a + b) c).
Proof. unfold hdr4, at_. cbn [nth_error bind]. rewrite be16_eq. reflexivity. Qed.
Lemma got_checked {A} len t a b c q e (k : res A) :
  got (checked Debug len (t :: a :: b :: c :: q) e k) = if fits len q then got k else None.
Proof.
  unfold checked, check_tliv_ie_buffer, fits. destruct (N.eqb_spec len 0) as [->|Hz]; [reflexivity|].
  rewrite (proj2 (N.leb_le 1 len)) by lia. cbn [andb]. unfold add16, ov. destruct (N.leb_spec len 65531).
  - rewrite (proj2 (N.ltb_lt _ _)) by lia. cbn [bind]. unfold nlen.
    destruct (N.leb_spec len (N.of_nat (length q))).
    + rewrite (proj2 (Nat.leb_le _ _)) by (cbn [length]; lia). reflexivity.
    + rewrite (proj2 (Nat.leb_gt _ _)) by (cbn [length]; lia). reflexivity.
  - rewrite (proj2 (N.ltb_ge _ _)) by lia. reflexivity.
Qed.
Lemma fits_inv len q : fits len q = true -> 1 <= len <= 65531 /\ (N.to_nat len <= length q)%nat.
Proof. unfold fits, nlen. intros H. apply andb_prop in H as [H H3]. apply andb_prop in H as [H1 H2]. apply N.leb_le in H1, H2, H3. lia. Qed.
Lemma end16_fits {E} len q : fits len q = true -> @bind E _ _ (add16 Debug len 4) (fun s => Ok (N.to_nat s)) = Ok (4 + N.to_nat len)%nat.
Proof. intros H. apply fits_inv in H. rewrite add16_small by lia. cbn [bind]. f_equal. lia. Qed.
Lemma slice4 {E} t a b c q n : (n <= length q)%nat -> @slice E (t :: a :: b :: c :: q) 4 (4 + n) = Ok (firstn n q).
Proof. intros. rewrite slice_ok by (cbn [length]; lia). do 2 f_equal; try lia. Qed.
Lemma slice5 {E} t a b c x q n : (1 <= n)%nat -> (n <= S (length q))%nat -> @slice E (t :: a :: b :: c :: x :: q) 5 (4 + n) = Ok (firstn (n - 1) q).
Proof. intros. rewrite slice_ok by (cbn [length]; lia). do 2 f_equal; try lia. Qed.

(* [open]: the header, then the octets of the packet one by one. Every short packet is refused by both sides. *)
Ltac hd s := destruct s as [|?t s]; [reflexivity|]; destruct s as [|?a s]; [reflexivity|];
  destruct s as [|?b s]; [reflexivity|]; destruct s as [|?c s]; [reflexivity|].
Lemma bytes_cons x l : bytes (x :: l) -> byte x /\ bytes l.
Proof. intros H. inversion H; subst. split; assumption. Qed.
Ltac bys H := repeat match type of H with bytes (_ :: _) => let B := fresh "B" in apply bytes_cons in H as [B H] end.
Ltac fixd n s := match n with O => idtac | S ?k => destruct s as [|?x s]; [reflexivity|fixd k s] end.
(* both sides evaluated on octets that are there *)
Ltac run := cbv beta iota zeta delta [got need hdr4 at_ be_at slice slice_from std bind nth_error length Nat.leb
   Nat.add Nat.mul Nat.sub andb negb firstn skipn open open' element low_half whole andthen yield refuse take1 take number
   octet_as same accept room pass if_set wrap fst snd].
Ltac unf := match goal with |- got (?f _ _) = ?g _ => unfold f, g end.
Ltac open_ n s := unf; hd s; fixd n s; run; arith; bits; try reflexivity.

Lemma AbsoluteTimeMbmsDataTransfer_eq s : bytes s -> got (AbsoluteTimeMbmsDataTransfer_unmarshal Debug s) = AbsoluteTimeMbmsDataTransfer_reads s.
Proof. intros Hb. open_ 8%nat s. Qed.
(* one octet with a meaning *)
Ltac one_octet s Hb := unf; hd s; fixd 1%nat s; bys Hb; run; arith; bits;
  try reflexivity; match goal with x : N, H : byte ?x |- context [?x] => idtac end.
Lemma ActionIndication_eq s : bytes s -> got (ActionIndication_unmarshal Debug s) = ActionIndication_reads s.
Proof. intros Hb. open_ 1%nat s. bys Hb. do 2 f_equal. per_octet x. Qed.
Lemma AdditionalFlagsSrvcc_eq s : bytes s -> got (AdditionalFlagsSrvcc_unmarshal Debug s) = AdditionalFlagsSrvcc_reads s.
Proof. intros Hb. open_ 1%nat s. bys Hb. cbv beta. generalize (256 * a + b) (c mod 16). intros l i. per_octet x. Qed.

(* a length octet and the octets *)
Definition sim {A} (s : list N) (r : res (A * nat)) (o : option (A * list N)) : Prop :=
  match r, o with
  | Ok (a, c), Some (a', q) => a = a' /\ q = skipn c s
  | Ok _, None => False
  | _, Some _ => False
  | _, None => True
  end.
Lemma step_c {A B C} s (r : res (A * nat)) (p : reader A) q (k : A * nat -> res C) (k' : A -> reader B) F :
  sim s r (p q) -> (forall a c, r = Ok (a, c) -> got (k (a, c)) = wrap F (k' a (skipn c s))) ->
  got (bind r k) = wrap F (andthen p k' q).
Proof.
  unfold sim, andthen. intros H Hk. destruct r as [[a c]| | |]; destruct (p q) as [[a' q']|]; try easy.
  destruct H as [<- ->]. apply Hk; reflexivity.
Qed.
Lemma step_c' {A B} s (r : res (A * nat)) (p : reader A) q (k : A * nat -> res (B * nat)) (k' : A -> reader B) :
  sim s r (p q) -> (forall a c, r = Ok (a, c) -> sim s (k (a, c)) (k' a (skipn c s))) ->
  sim s (bind r k) (andthen p k' q).
Proof.
  unfold andthen. intros H Hk. destruct r as [[a c]| | |]; destruct (p q) as [[a' q']|]; try easy.
  destruct H as [<- ->]. apply Hk; reflexivity.
Qed.
Lemma skipn_cons {A} n (s : list A) x : nth_error s n = Some x -> skipn n s = x :: skipn (S n) s.
Proof. revert s. induction n; intros [|y s]; cbn; try discriminate; [congruence|apply IHn]. Qed.
Lemma skipn_none {A} n (s : list A) : nth_error s n = None -> skipn n s = [].
Proof. intros H. apply nth_error_None in H. apply skipn_all2. exact H. Qed.
Lemma skipn_skipn' {A} n m (s : list A) : skipn n (skipn m s) = skipn (m + n) s.
Proof. revert s. induction m; intros s; [reflexivity|]. destruct s; [rewrite !skipn_nil; reflexivity|]. cbn. apply IHm. Qed.
(* the octet under the cursor *)
Lemma at_take1 s c : sim s (let? x := at_ s c in Ok (x, S c)) (take1 (skipn c s)).
Proof.
  unfold at_. destruct (nth_error s c) eqn:E; cbn [bind].
  - rewrite (skipn_cons _ _ _ E). split; reflexivity.
  - rewrite (skipn_none _ _ E). exact I.
Qed.
Lemma step_1 {B C} s c (k : N -> res C) (k' : N -> reader B) F :
  (forall x, nth_error s c = Some x -> got (k x) = wrap F (k' x (skipn (S c) s))) ->
  got (bind (at_ s c) k) = wrap F (andthen take1 k' (skipn c s)).
Proof.
  intros H. unfold at_, andthen. destruct (nth_error s c) eqn:E; cbn [bind].
  - rewrite (skipn_cons _ _ _ E). apply H; reflexivity.
  - rewrite (skipn_none _ _ E). reflexivity.
Qed.
Lemma step_1' {B} s c (k : N -> res (B * nat)) (k' : N -> reader B) :
  (forall x, nth_error s c = Some x -> sim s (k x) (k' x (skipn (S c) s))) ->
  sim s (bind (at_ s c) k) (andthen take1 k' (skipn c s)).
Proof.
  intros H. unfold at_, andthen. destruct (nth_error s c) eqn:E; cbn [bind].
  - rewrite (skipn_cons _ _ _ E). apply H; reflexivity.
  - rewrite (skipn_none _ _ E). exact I.
Qed.
Lemma take_skipn n c s : (c <= length s)%nat ->
  take n (skipn c s) = if (c + n <=? length s)%nat then Some (firstn n (skipn c s), skipn (c + n) s) else None.
Proof.
  intros H. unfold take. rewrite skipn_length, skipn_skipn'.
  destruct (Nat.leb_spec (c + n) (length s)); destruct (Nat.leb_spec n (length s - c)); try reflexivity; lia.
Qed.
Lemma lv_counted s c e : sim s (lv_at s c e) (counted (skipn c s)).
Proof.
  unfold lv_at, counted. apply step_1'. intros x Hx. assert (c < length s)%nat by (apply nth_error_Some; congruence).
  rewrite take_skipn by lia. replace (c + 1 + N.to_nat x)%nat with (S c + N.to_nat x)%nat by lia.
  destruct (Nat.leb_spec (S c + N.to_nat x) (length s)); [|exact I].
  rewrite slice_ok by lia. cbn [bind sim]. split; [|reflexivity]. replace (c + 1)%nat with (S c) by lia. f_equal. lia.
Qed.
Lemma amm_absent s c : sim s (amm_field s c) (or_absent (skipn c s)).
Proof.
  unfold amm_field, or_absent. apply step_1'. intros x Hx. assert (c < length s)%nat by (apply nth_error_Some; congruence).
  destruct (N.eqb_spec x 0) as [->|Hz].
  - change (N.to_nat 0) with 0%nat. cbn [Nat.ltb Nat.leb andthen pass yield sim]. split; [reflexivity|]. rewrite skipn_skipn'. f_equal. lia.
  - rewrite (proj2 (Nat.ltb_lt _ _)) by lia. unfold andthen. rewrite take_skipn by lia.
    replace (c + 1 + N.to_nat x)%nat with (S c + N.to_nat x)%nat by lia.
    destruct (Nat.leb_spec (S c + N.to_nat x) (length s)); [|exact I].
    rewrite slice_ok by lia. cbn [bind sim yield]. split; [|reflexivity]. replace (c + 1)%nat with (S c) by lia. do 2 f_equal. lia.
Qed.
(* an element read with a cursor, after [n] octets of fixed layout *)
Lemma open_wrap {A} T t a b c q (p : reader A) :
  open T p (t :: a :: b :: c :: q) = wrap (std T (256 * a + b) c) (p q).
Proof. unfold open, element, wrap, std, low_half. rewrite land15. reflexivity. Qed.
Lemma open_wrap' {A} T t a b c q (p : reader A) :
  open' T p (t :: a :: b :: c :: q) = wrap (mkIe T (256 * a + b) c) (p q).
Proof. unfold open', element, wrap, whole. reflexivity. Qed.
Lemma loose_wrap {A} T t a b c q (p : reader A) :
  loose T p (t :: a :: b :: c :: q) = if fits (256 * a + b) q then wrap (std T (256 * a + b) c) (p q) else None.
Proof. unfold loose, checked_, element, wrap, std, low_half. rewrite land15. destruct (fits _ q); reflexivity. Qed.
Lemma closed_wrap {A} T t a b c q (p : list N -> option A) :
  closed T p (t :: a :: b :: c :: q) =
  if fits (256 * a + b) q then option_map (std T (256 * a + b) c) (p (firstn (N.to_nat (256 * a + b)) q)) else None.
Proof.
  unfold closed, checked_, element, std, low_half. rewrite land15. destruct (fits _ q); [|reflexivity].
  destruct (p _); reflexivity.
Qed.
(* what is left of the goal: got (body on t :: a :: b :: c :: q) = wrap .. (reader q) *)
Ltac opens s := unf; hd s; rewrite ?got_need, got_hdr4, ?open_wrap, ?open_wrap'.
Ltac stp L := eapply step_c; [apply L|]; intros ? ? _.
(* the value is exactly the octets the length says *)
Ltac closes s := unf; hd s; cbn [length Nat.leb]; rewrite ?got_need; cbn [length Nat.leb]; rewrite ?got_hdr4;
  rewrite closed_wrap; rewrite ?got_checked.
Lemma AdditionalMmContextForSrvcc_eq s : bytes s -> got (AdditionalMmContextForSrvcc_unmarshal Debug s) = AdditionalMmContextForSrvcc_reads s.
Proof. intros Hb. opens s. destruct s as [|x s]; [reflexivity|]. cbn [length Nat.leb].
  change (x :: s) with (skipn 4 (t :: a :: b :: c :: x :: s)) at 2.
  stp amm_absent. stp amm_absent. stp amm_absent. reflexivity. Qed.
Lemma AlternativeImsi_eq s : bytes s -> got (AlternativeImsi_unmarshal Debug s) = AlternativeImsi_reads s.
Proof. intros Hb. closes s. destruct s as [|x s]; [destruct (fits _ []) eqn:Hf; [apply fits_inv in Hf; cbn in Hf; lia|reflexivity]|].
  cbn [length Nat.leb].
  destruct (fits _ _) eqn:Hf; [|reflexivity]. apply fits_inv in Hf. rewrite (Nat.add_comm _ 4). rewrite slice4 by lia. cbn [bind got option_map digits_].
  rewrite tbcd_number. reflexivity. Qed.
Lemma Ambr_eq s : bytes s -> got (Ambr_unmarshal Debug s) = Ambr_reads s.
Proof. intros Hb. open_ 8%nat s. Qed.
Lemma Apco_eq s : bytes s -> got (Apco_unmarshal Debug s) = Apco_reads s.
Proof. intros Hb. closes s. destruct (fits _ _) eqn:Hf; [|reflexivity]. pose proof (fits_inv _ _ Hf). rewrite ?slice4 by lia. reflexivity. Qed.
Lemma Apn_eq s : bytes s -> got (Apn_unmarshal Debug s) = Apn_reads s.
Proof. intros Hb. closes s. destruct (fits _ _) eqn:Hf; [|reflexivity]. pose proof (fits_inv _ _ Hf). rewrite slice4 by lia. cbn [bind]. rewrite got_bind, name_got. destruct (name_in _); reflexivity. Qed.
Lemma ApnRateControlStatus_eq s : bytes s -> got (ApnRateControlStatus_unmarshal Debug s) = ApnRateControlStatus_reads s.
Proof. intros Hb. open_ 20%nat s. Qed.
Lemma ApnRelativeCapacity_eq s : bytes s -> got (ApnRelativeCapacity_unmarshal Debug s) = ApnRelativeCapacity_reads s.
Proof. intros Hb. closes s. destruct (fits _ _) eqn:Hf; [|reflexivity]. pose proof (fits_inv _ _ Hf).
  destruct s as [|x s]; [cbn in *; lia|]. cbn [length] in *. rewrite slice5 by lia. unfold at_. cbn [nth_error bind].
  destruct (N.to_nat (256 * a + b)) as [|n] eqn:En; [lia|]. cbn [firstn Nat.sub]. rewrite Nat.sub_0_r, got_bind, name_got. destruct (name_in _); reflexivity. Qed.
Lemma ApnRestriction_eq s : bytes s -> got (ApnRestriction_unmarshal Debug s) = ApnRestriction_reads s.
Proof. intros Hb. open_ 1%nat s. bys Hb. do 2 f_equal. per_octet x. Qed.
Lemma Arp_eq s : bytes s -> got (Arp_unmarshal Debug s) = Arp_reads s.
Proof. intros Hb. open_ 1%nat s. bys Hb. generalize (256 * a + b) (c mod 16). intros l i. per_octet x. Qed.
Lemma AdditionalRrmPolicyIndex_eq s : bytes s -> got (AdditionalRrmPolicyIndex_unmarshal Debug s) = AdditionalRrmPolicyIndex_reads s.
Proof. intros Hb. open_ 4%nat s. Qed.
Lemma BearerFlags_eq s : bytes s -> got (BearerFlags_unmarshal Debug s) = BearerFlags_reads s.
Proof. intros Hb. open_ 1%nat s. Qed.
Lemma BearerQos_eq s : bytes s -> got (BearerQos_unmarshal Debug s) = BearerQos_reads s.
Proof. intros Hb. open_ 22%nat s. Qed.
Lemma BearerTft_eq s : bytes s -> got (BearerTft_unmarshal Debug s) = BearerTft_reads s.
Proof. intros Hb. closes s. destruct (fits _ _) eqn:Hf; [|reflexivity]. pose proof (fits_inv _ _ Hf). rewrite ?slice4 by lia. reflexivity. Qed.
Lemma BitRate_eq s : bytes s -> got (BitRate_unmarshal Debug s) = BitRate_reads s.
Proof. intros Hb. open_ 4%nat s. Qed.
Lemma Cause_eq s : bytes s -> got (Cause_unmarshal Debug s) = Cause_reads s.
Proof. intros Hb. opens s. destruct s as [|x s]; [reflexivity|]. cbn [length Nat.leb]. unfold Cause_reads, element.
  destruct (N.eqb_spec (256 * a + b) 2) as [E|E].
  - destruct s as [|y s]; [reflexivity|]. rewrite E. run. arith. bits. reflexivity.
  - destruct (N.eqb_spec (256 * a + b) 6) as [E'|E'].
    + rewrite E'. fixd 5%nat s; run; arith; bits; reflexivity.
    + destruct s as [|y s]; [reflexivity|]. run. reflexivity. Qed.
Lemma ChangeReportingAction_eq s : bytes s -> got (ChangeReportingAction_unmarshal Debug s) = ChangeReportingAction_reads s.
Proof. intros Hb. open_ 1%nat s. Qed.
Lemma ChangeToReportFlags_eq s : bytes s -> got (ChangeToReportFlags_unmarshal Debug s) = ChangeToReportFlags_reads s.
Proof. intros Hb. open_ 1%nat s. bys Hb. generalize (256 * a + b) (c mod 16). intros l i. per_octet x. Qed.
Lemma ChannelNeeded_eq s : bytes s -> got (ChannelNeeded_unmarshal Debug s) = ChannelNeeded_reads s.
Proof. intros Hb. open_ 1%nat s. Qed.
Lemma ChargingCharacteristics_eq s : bytes s -> got (ChargingCharacteristics_unmarshal Debug s) = ChargingCharacteristics_reads s.
Proof. intros Hb. open_ 2%nat s. Qed.
Lemma ChargingId_eq s : bytes s -> got (ChargingId_unmarshal Debug s) = ChargingId_reads s.
Proof. intros Hb. open_ 4%nat s. Qed.
Lemma CIoTOptimizationSupportIndication_eq s : bytes s -> got (CIoTOptimizationSupportIndication_unmarshal Debug s) = CIoTOptimizationSupportIndication_reads s.
Proof. intros Hb. open_ 1%nat s. Qed.
Lemma CsgMembershipIndication_eq s : bytes s -> got (CsgMembershipIndication_unmarshal Debug s) = CsgMembershipIndication_reads s.
Proof. intros Hb. open_ 1%nat s. bys Hb. do 2 f_equal. per_octet x. Qed.
Lemma CnOperatorSelectionEntity_eq s : bytes s -> got (CnOperatorSelectionEntity_unmarshal Debug s) = CnOperatorSelectionEntity_reads s.
Proof. intros Hb. open_ 1%nat s. bys Hb. generalize (256 * a + b) (c mod 16). intros l i. per_octet x. Qed.
