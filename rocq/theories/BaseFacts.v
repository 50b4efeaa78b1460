(* BaseFacts.v - lemmas and tactics about Base.v. *)
From Verif Require Export Base.

Lemma bind_ok {E A B} (r : res E A) (k : A -> res E B) b :
  bind r k = Ok b -> exists a, r = Ok a /\ k a = Ok b.
Proof. destruct r; cbn; intros; try discriminate; eauto. Qed.

Lemma Ok_inj {E A} (a b : A) : @Ok E A a = Ok b -> a = b.
Proof. congruence. Qed.

Lemma nth_error_skipn {A} (l : list A) n i : nth_error (skipn n l) i = nth_error l (n + i).
Proof.
  revert l; induction n as [|n IH]; intros l; [reflexivity|].
  destruct l as [|x l]; [destruct i; reflexivity|]. apply IH.
Qed.

Lemma enc16_length n : length (enc16 n) = 2. Proof. reflexivity. Qed.
Lemma enc24_length n : length (enc24 n) = 3. Proof. reflexivity. Qed.
Lemma enc32_length n : length (enc32 n) = 4. Proof. reflexivity. Qed.
Lemma enc_be_length k n : length (enc_be k n) = k.
Proof. induction k; cbn; congruence. Qed.

Lemma be16_enc n : u16 n -> be16 ((n / 256) mod 256) (n mod 256) = n.
Proof. unfold u16, be16. lia. Qed.
Lemma be24_enc n : (n < 16777216)%N ->
  be24 ((n / 65536) mod 256) ((n / 256) mod 256) (n mod 256) = n.
Proof. unfold be24. lia. Qed.
Lemma be32_enc n : u32 n ->
  be32 ((n / 16777216) mod 256) ((n / 65536) mod 256) ((n / 256) mod 256) (n mod 256) = n.
Proof. unfold u32, be32. lia. Qed.

Lemma be_list_app acc l1 l2 : be_list acc (l1 ++ l2) = be_list (be_list acc l1) l2.
Proof. revert acc; induction l1; cbn; auto. Qed.

Lemma be_list_enc k n acc :
  be_list acc (enc_be k n) = (acc * 256 ^ N.of_nat k + n mod 256 ^ N.of_nat k)%N.
Proof.
  revert acc; induction k as [|k IH]; intros acc.
  - cbn [enc_be be_list N.of_nat]. rewrite N.pow_0_r, N.mod_1_r. lia.
  - cbn [enc_be be_list]. rewrite IH.
    replace (N.of_nat (S k)) with (N.succ (N.of_nat k)) by lia.
    rewrite N.pow_succ_r'. set (P := (256 ^ N.of_nat k)%N).
    assert (HP : (P <> 0)%N) by (apply N.pow_nonzero; lia).
    replace (256 * P)%N with (P * 256)%N by lia.
    rewrite N.mod_mul_r by lia. lia.
Qed.

Lemma be_list_enc0 k n : (n < 256 ^ N.of_nat k)%N -> be_list 0 (enc_be k n) = n.
Proof. intros. rewrite be_list_enc, N.mod_small by assumption. lia. Qed.

Lemma mod256_byte n : byte (n mod 256).
Proof. unfold byte. lia. Qed.
#[export] Hint Resolve mod256_byte : bytes.
Lemma bytes_enc16 n : bytes (enc16 n).
Proof. repeat constructor; apply mod256_byte. Qed.
Lemma bytes_enc24 n : bytes (enc24 n).
Proof. repeat constructor; apply mod256_byte. Qed.
Lemma bytes_enc32 n : bytes (enc32 n).
Proof. repeat constructor; apply mod256_byte. Qed.
Lemma bytes_enc_be k n : bytes (enc_be k n).
Proof. induction k; cbn; constructor; auto using mod256_byte. Qed.
Lemma bytes_app a b : bytes (a ++ b) <-> bytes a /\ bytes b.
Proof. apply Forall_app. Qed.

Lemma slice_ok {E} b i j : i <= j -> j <= length b ->
  @slice E b i j = Ok (firstn (j - i) (skipn i b)).
Proof.
  intros. unfold slice.
  destruct (Nat.leb_spec i j), (Nat.leb_spec j (length b)); cbn; try lia; reflexivity.
Qed.
Lemma slice_from_ok {E} b i : i <= length b -> @slice_from E b i = Ok (skipn i b).
Proof. intros. unfold slice_from. destruct (Nat.leb_spec i (length b)); try lia; reflexivity. Qed.

Lemma firstn_app_exact {A} (a b : list A) n : n = length a -> firstn n (a ++ b) = a.
Proof. intros ->. rewrite firstn_app, Nat.sub_diag, firstn_all. cbn. apply app_nil_r. Qed.
Lemma skipn_app_exact {A} (a b : list A) n : n = length a -> skipn n (a ++ b) = b.
Proof. intros ->. rewrite skipn_app, Nat.sub_diag, skipn_all. reflexivity. Qed.
Lemma slice_app_mid {E} a v b i j : i = length a -> j = length a + length v ->
  @slice E (a ++ v ++ b) i j = Ok v.
Proof.
  intros -> ->. rewrite slice_ok; rewrite ?app_length; try lia.
  rewrite skipn_app_exact by reflexivity. rewrite firstn_app_exact by lia. reflexivity.
Qed.
Lemma slice_bytes {E} b i j v : bytes b -> @slice E b i j = Ok v -> bytes v.
Proof.
  unfold slice. intros Hb. destruct (_ && _); [|discriminate]. intros [= <-].
  unfold bytes in *. rewrite <- (firstn_skipn i b), Forall_app in Hb. destruct Hb as [_ Hb].
  rewrite <- (firstn_skipn (j - i) (skipn i b)), Forall_app in Hb. apply Hb.
Qed.
Lemma bytes_skipn b i : bytes b -> bytes (skipn i b).
Proof. unfold bytes. intros Hb. rewrite <- (firstn_skipn i b), Forall_app in Hb. apply Hb. Qed.
Lemma bytes_firstn b i : bytes b -> bytes (firstn i b).
Proof. unfold bytes. intros Hb. rewrite <- (firstn_skipn i b), Forall_app in Hb. apply Hb. Qed.
Lemma nth_error_bytes b i x : bytes b -> nth_error b i = Some x -> byte x.
Proof. intros H Hn. unfold bytes in H. rewrite Forall_forall in H. apply H. eapply nth_error_In; eauto. Qed.

Lemma ov_small {E} m w v : (v < w)%N -> @ov E m w v = Ok v.
Proof. intros. unfold ov. destruct (N.ltb_spec v w); [reflexivity | lia]. Qed.
Lemma mul8_small {E} m a b : (a * b < 256)%N -> @mul8 E m a b = Ok (a * b)%N.
Proof. apply ov_small. Qed.
Lemma add8_small {E} m a b : (a + b < 256)%N -> @add8 E m a b = Ok (a + b)%N.
Proof. apply ov_small. Qed.
Lemma add16_small {E} m a b : (a + b < 65536)%N -> @add16 E m a b = Ok (a + b)%N.
Proof. apply ov_small. Qed.

Lemma at_lt {E} b i : i < length b -> exists x, @at_ E b i = Ok x /\ nth_error b i = Some x.
Proof.
  intros. unfold at_. destruct (nth_error b i) eqn:Hn; eauto.
  apply nth_error_None in Hn. lia.
Qed.

(* Finite sweeps: a boolean check over 0..n-1 holds for every N below n. *)
Definition upto (n : nat) : list N := map N.of_nat (seq 0 n).
Lemma in_upto n x : (x < N.of_nat n)%N -> In x (upto n).
Proof.
  intros. unfold upto. apply in_map_iff. exists (N.to_nat x). rewrite N2Nat.id.
  split; [reflexivity|]. apply in_seq. lia.
Qed.
Lemma sweep n (P : N -> bool) : forallb P (upto n) = true ->
  forall x, (x < N.of_nat n)%N -> P x = true.
Proof. rewrite forallb_forall. intros H x Hx. apply H, in_upto, Hx. Qed.
Lemma sweep2 n1 n2 (P : N -> N -> bool) :
  forallb (fun x => forallb (P x) (upto n2)) (upto n1) = true ->
  forall x y, (x < N.of_nat n1)%N -> (y < N.of_nat n2)%N -> P x y = true.
Proof.
  intros H x y Hx Hy. apply (sweep n2); [|exact Hy].
  apply (sweep n1 (fun x => forallb (P x) (upto n2))); assumption.
Qed.

(* Split a list with a known lower bound on its length into its first cells. *)
Ltac list_split b H :=
  repeat (destruct b as [|?x b]; [exfalso; cbn [length] in H; lia|];
          cbn [length] in H; apply le_S_n in H).

#[global] Arguments N.add : simpl never.
#[global] Arguments N.sub : simpl never.
#[global] Arguments N.mul : simpl never.
#[global] Arguments N.div : simpl never.
#[global] Arguments N.modulo : simpl never.
#[global] Arguments N.pow : simpl never.
#[global] Arguments N.land : simpl never.
#[global] Arguments N.lor : simpl never.
#[global] Arguments N.shiftl : simpl never.
#[global] Arguments N.shiftr : simpl never.
#[global] Arguments N.leb : simpl never.
#[global] Arguments N.ltb : simpl never.
#[global] Arguments N.eqb : simpl never.
#[global] Arguments N.to_nat : simpl never.
#[global] Arguments N.of_nat : simpl never.
#[global] Arguments be16 : simpl never.
#[global] Arguments be24 : simpl never.
#[global] Arguments be32 : simpl never.
#[global] Arguments slice : simpl never.
#[global] Arguments slice_from : simpl never.
#[global] Arguments ov : simpl never.
#[global] Arguments add8 : simpl never.
#[global] Arguments mul8 : simpl never.
#[global] Arguments add16 : simpl never.

(* Evaluate N operations on literals in the goal. *)
Ltac ground_pos p :=
  lazymatch p with xH => idtac | xO ?q => ground_pos q | xI ?q => ground_pos q end.
Ltac ground_N x := lazymatch x with N0 => idtac | Npos ?p => ground_pos p end.
Ltac eval_op f a b :=
  ground_N a; ground_N b; let v := eval vm_compute in (f a b) in change (f a b) with v.
Ltac evalN :=
  repeat match goal with
  | |- context [N.shiftr ?a ?b] => eval_op N.shiftr a b
  | |- context [N.shiftl ?a ?b] => eval_op N.shiftl a b
  | |- context [N.land ?a ?b] => eval_op N.land a b
  | |- context [N.lor ?a ?b] => eval_op N.lor a b
  | |- context [N.eqb ?a ?b] => eval_op N.eqb a b
  | |- context [N.leb ?a ?b] => eval_op N.leb a b
  | |- context [N.ltb ?a ?b] => eval_op N.ltb a b
  | |- context [N.add ?a ?b] => eval_op N.add a b
  | |- context [N.mul ?a ?b] => eval_op N.mul a b
  | |- context [N.sub ?a ?b] => eval_op N.sub a b
  | |- context [N.div ?a ?b] => eval_op N.div a b
  | |- context [N.modulo ?a ?b] => eval_op N.modulo a b
  | |- context [N.testbit ?a ?b] => eval_op N.testbit a b
  end.
