(* V2IeFacts.v - lemmas and tactics shared by the proofs about information elements. *)
From Verif Require Export LabelsFacts V2BaseFacts V2Enums V2IeSpec.
Local Open Scope N_scope.
#[global] Arguments be_at : simpl never.
#[global] Arguments slice : simpl never.
#[global] Arguments enc_be : simpl never.
#[global] Arguments bit : simpl never.
#[global] Arguments flag : simpl never.

Lemma land15 i : i < 16 -> N.land i 15 = i.
Proof. intros. change 15 with (N.ones 4). rewrite N.land_ones. change (2 ^ 4) with 16. lia. Qed.

Lemma ie_open {A} T value ok (x : Tliv A) r : wf_ie T value ok x ->
  exists h l, marshal_ie T value x ++ r = T :: h :: l :: ie_ins x :: (value (ie_v x) ++ r) /\
              be16 h l = ie_length x.
Proof.
  intros (Ht & Hi & Hl & Hn & Hv). unfold marshal_ie.
  destruct (tliv_shape T (ie_length x) (ie_ins x) (value (ie_v x))) as (h & l & E & _ & _ & Hbe).
  exists h, l. rewrite E, Hbe, Hl. split; [reflexivity|lia].
Qed.

(* reading *)
Lemma slice_cons {E} x b i j : @slice E (x :: b) (S i) (S j) = slice b i j.
Proof. reflexivity. Qed.
Lemma slice_skip {E} p b i j : (length p <= i)%nat -> (length p <= j)%nat ->
  @slice E (p ++ b) i j = slice b (i - length p) (j - length p).
Proof.
  intros. unfold slice. rewrite app_length.
  replace (j - length p - (i - length p))%nat with (j - i)%nat by lia.
  rewrite skipn_app, (skipn_all2 p) by lia. cbn [app].
  destruct (Nat.leb_spec i j), (Nat.leb_spec (i - length p) (j - length p)),
    (Nat.leb_spec j (length p + length b)), (Nat.leb_spec (j - length p) (length b)); cbn; try reflexivity; lia.
Qed.
Lemma slice_here {E} v r n : n = length v -> @slice E (v ++ r) 0 n = Ok v.
Proof. intros ->. apply (slice_app_mid [] v r); reflexivity. Qed.
Lemma slice_mid {E} p v r i j : i = length p -> j = (length p + length v)%nat -> @slice E (p ++ v ++ r) i j = Ok v.
Proof. intros. apply slice_app_mid; assumption. Qed.
Lemma be_at_cons x b k n : be_at (x :: b) (S k) n = be_at b k n.
Proof. reflexivity. Qed.
Lemma be_at_skip p b i n : (length p <= i)%nat -> be_at (p ++ b) i n = be_at b (i - length p) n.
Proof.
  intros. unfold be_at. rewrite slice_skip by lia.
  replace (i + n - length p)%nat with (i - length p + n)%nat by lia. reflexivity.
Qed.
Lemma be_at_enc k v r : v < 256 ^ N.of_nat k -> be_at (enc_be k v ++ r) 0 k = Ok v.
Proof.
  intros. unfold be_at. rewrite slice_here by (rewrite enc_be_length; lia). cbn [bind].
  rewrite be_list_enc0 by assumption. reflexivity.
Qed.
Lemma be_at_enc_nil k v : v < 256 ^ N.of_nat k -> be_at (enc_be k v) 0 k = Ok v.
Proof. intros. rewrite <- (app_nil_r (enc_be k v)). apply be_at_enc. assumption. Qed.
Lemma at_skip {E} p b i : (length p <= i)%nat -> @at_ E (p ++ b) i = at_ b (i - length p).
Proof. intros. unfold at_. rewrite nth_error_app2 by assumption. reflexivity. Qed.

Lemma len_usize_exact {A} T value ok (x : Tliv A) : wf_ie T value ok x ->
  len_usize x = Ok (length (marshal_ie T value x)).
Proof.
  intros (Ht & Hi & Hl & Hn & Hv). unfold len_usize, marshal_ie. rewrite tliv_length, Hl. unfold nlen. f_equal. lia.
Qed.
Lemma len_u16_exact {A} T value ok m (x : Tliv A) : wf_ie T value ok x ->
  len_u16 m x = Ok (length (marshal_ie T value x)).
Proof.
  intros (Ht & Hi & Hl & Hn & Hv). unfold len_u16, marshal_ie. rewrite add16_small by lia. cbn [bind].
  rewrite tliv_length, Hl. unfold nlen. f_equal. lia.
Qed.
Lemma len_const_exact {A} T (value : A -> list N) n x : (4 + length (value (ie_v x)))%nat = n ->
  len_const n = Ok (length (marshal_ie T value x)).
Proof. intros <-. unfold len_const, marshal_ie. rewrite tliv_length. reflexivity. Qed.

Ltac lens := cbn [length app]; rewrite ?app_length, ?enc_be_length, ?mcc_mnc_length; cbn [length app];
  rewrite ?app_length, ?enc_be_length, ?mcc_mnc_length; unfold nlen in *; cbn [length] in *; try lia.
Ltac bnd :=
  repeat match goal with |- context [256 ^ N.of_nat ?k] =>
    let c := eval vm_compute in (256 ^ N.of_nat k) in change (256 ^ N.of_nat k) with c end;
  unfold byte, u16, u32, u64 in *; lia.

(* Start of every round-trip proof: X_unmarshal m (X_marshal x ++ r) = Ok x. *)
Ltac ie_rt :=
  let H := fresh "H" in let E := fresh "E" in
  intros m x r H; destruct (ie_open _ _ _ x r H) as (h & l & E & Hbe);
  match goal with |- ?f ?m (?g ?x ++ ?r) = _ => unfold f, g end;
  rewrite E; clear E;
  destruct H as (Ht & Hi & Hl & Hn & Hv); destruct x as [t len ins v];
  cbn [ie_t ie_length ie_ins ie_v] in Ht, Hi, Hl, Hn, Hv, Hbe |- *; subst t.
Ltac hd := rewrite ?need_ok by lens; rewrite hdr4_cons;
  match goal with H : be16 _ _ = _ |- _ => rewrite H end.
Ltac rd := repeat first
  [ rewrite at_0 | rewrite at_cons | rewrite be_at_cons | rewrite slice_cons
  | rewrite be_at_enc by bnd | rewrite be_at_enc_nil by bnd
  | rewrite be_at_skip by lens; rewrite ?enc_be_length, ?mcc_mnc_length; cbn [Nat.sub]
  | rewrite at_skip by lens; rewrite ?enc_be_length, ?mcc_mnc_length; cbn [Nat.sub]
  | progress cbn [bind app] ].
Ltac fin := unfold std; rewrite ?land15 by assumption; try reflexivity.
(* destruct every boolean field and compute *)
Ltac bools := repeat match goal with b : bool |- _ => destruct b end; try reflexivity.

(* crash freedom *)
Lemma returns_need {A} b n e (k : res A) : ((n <= length b)%nat -> returns k) -> returns (need b n e k).
Proof. intros H. unfold need. destruct (Nat.leb_spec n (length b)); [auto|exact I]. Qed.
Lemma hdr4_eq {A} b (k : N -> N -> res A) : (4 <= length b)%nat -> hdr4 b k = k (declared b) (nth 3 b 0).
Proof. intros H. list_split b H. reflexivity. Qed.
Lemma returns_at {A} b i (k : N -> res A) : (i < length b)%nat -> (forall x, nth_error b i = Some x -> returns (k x)) ->
  returns (bind (at_ b i) k).
Proof. intros H K. destruct (at_lt (E := GTPV2Error) b i H) as (x & -> & Hx). apply K, Hx. Qed.
Lemma returns_slice {A} b i j (k : list N -> res A) : (i <= j)%nat -> (j <= length b)%nat ->
  (forall s, length s = (j - i)%nat -> returns (k s)) -> returns (bind (slice b i j) k).
Proof.
  intros H1 H2 K. rewrite slice_ok by assumption. apply K. rewrite firstn_length, skipn_length. lia.
Qed.
Lemma returns_be_at {A} b i n (k : N -> res A) : (i + n <= length b)%nat ->
  (forall x, returns (k x)) -> returns (bind (be_at b i n) k).
Proof. intros H K. unfold be_at. rewrite slice_ok by lia. cbn [bind]. apply K. Qed.
Lemma returns_checked {A} m len b e (k : res A) : len <= 65531 ->
  (len <> 0 -> (N.to_nat len + 4 <= length b)%nat -> returns k) -> returns (checked m len b e k).
Proof.
  intros H K. unfold checked, check_tliv_ie_buffer. destruct (N.eqb_spec len 0); [exact I|].
  rewrite add16_small by lia. cbn [bind]. destruct (Nat.leb_spec (N.to_nat (len + 4)) (length b)); [|exact I].
  apply K; [assumption|lia].
Qed.
Lemma returns_end16 {A} m len k (c : nat -> res A) : len + k < 65536 ->
  returns (c (N.to_nat (len + k))) -> returns (bind (end16 m len k) c).
Proof. intros H K. rewrite end16_ok by assumption. exact K. Qed.
Lemma returns_if {A} (c : bool) (k1 k2 : res A) : (c = true -> returns k1) -> (c = false -> returns k2) ->
  returns (if c then k1 else k2).
Proof. destruct c; auto. Qed.
Lemma returns_bind {A B} (r : res A) (k : A -> res B) :
  returns r -> (forall a, r = Ok a -> returns (k a)) -> returns (bind r k).
Proof. destruct r; cbn; auto. Qed.

Ltac safe1 :=
  match goal with
  | |- returns (Ok _) => exact I
  | |- returns (Err _) => exact I
  | |- returns (need _ _ _ _) => apply returns_need; intros
  | |- returns (hdr4 _ _) => rewrite hdr4_eq by lia
  | |- returns (checked _ _ _ _ _) => apply returns_checked; [assumption || lia | intros]
  | |- returns (bind (at_ _ _) _) => apply returns_at; [try lia | intros]
  | |- returns (bind (slice _ _ _) _) => apply returns_slice; [try lia | try lia | intros]
  | |- returns (bind (be_at _ _ _) _) => apply returns_be_at; [try lia | intros]
  | |- returns (bind (end16 _ _ _) _) => apply returns_end16; [try lia | ]
  | |- returns (if _ then _ else _) => apply returns_if; intros
  | |- returns (bind (Ok _) _) => cbn [bind]
  | |- returns (bind (Err _) _) => exact I
  | |- returns (bind (if _ then _ else _) _) => apply returns_bind; [|intros]
  end; cbv zeta beta.
Ltac safe := repeat safe1.
(* Start: returns (X_unmarshal m b) *)
Ltac ie_safe := intros; match goal with |- returns (?f _ _) => unfold f end; safe.

(* octet strings after the four header octets *)
Lemma slice4 {E} a b c d v r n : n = (4 + length v)%nat -> @slice E (a :: b :: c :: d :: v ++ r) 4 n = Ok v.
Proof. intros ->. cbn [Nat.add]. rewrite !slice_cons. apply slice_here. reflexivity. Qed.
Lemma nonempty_len {A} (v : list A) : v <> [] -> nlen v <> 0.
Proof. destruct v; [contradiction|]. unfold nlen. cbn. lia. Qed.
Ltac octs := rewrite checked_ok by lens; rewrite slice4 by lens; cbn [bind].
Lemma cons4_app (a b c d : N) x : a :: b :: c :: d :: x = [a; b; c; d] ++ x.
Proof. reflexivity. Qed.
Lemma tbcd_pos v : v <> [] -> Forall (fun c => 48 <= c <= 57) v -> (0 < length (tbcd_encode v))%nat.
Proof. intros Hne Hd. rewrite tbcd_encode_length by exact Hd. destruct v; [contradiction|]. cbn [length]. lia. Qed.

(* H : x < n becomes the n cases *)
Ltac cases_lt n H :=
  apply (in_upto n) in H; vm_compute in H; repeat (destruct H as [H|H]; [subst; try reflexivity|]); try contradiction.
