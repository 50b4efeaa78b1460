(* V2Cursor.v - reasoning about decoders that walk through the buffer with a cursor. *)
From Verif Require Export V2CommonFacts.
Local Open Scope N_scope.
Lemma bindOk {E A B} (a : A) (k : A -> Base.res E B) : bind (Ok a) k = k a.
Proof. reflexivity. Qed.
Ltac bk := rewrite bindOk; cbv beta.

(* the octets of B from c on are s *)
Definition at_pos (B : list N) (c : nat) (s : list N) : Prop := exists p, B = p ++ s /\ c = length p.
(* f reads the encoding E of v at the cursor, whatever follows, and steps over it *)
Definition reads {A} (f : list N -> nat -> res (A * nat)) (E : list N) (v : A) : Prop :=
  forall B c R, at_pos B c (E ++ R) -> f B c = Ok (v, (c + length E)%nat).

Lemma at_pos_next B c E R : at_pos B c (E ++ R) -> at_pos B (c + length E) R.
Proof. intros (p & -> & ->). exists (p ++ E). rewrite app_length, <- app_assoc. auto. Qed.
Lemma at_pos_len B c s : at_pos B c s -> length B = (c + length s)%nat.
Proof. intros (p & -> & ->). apply app_length. Qed.
Lemma at_pos_start p s : at_pos (p ++ s) (length p) s.
Proof. exists p. auto. Qed.
Lemma at_pos_at {E} B c x s : at_pos B c (x :: s) -> @at_ E B c = Ok x.
Proof. intros (p & -> & ->). rewrite at_skip, Nat.sub_diag by lia. apply at_0. Qed.
Lemma at_pos_slice {E} B c e s j : at_pos B c (e ++ s) -> j = (c + length e)%nat -> @slice E B c j = Ok e.
Proof. intros (p & -> & ->) ->. apply slice_mid; reflexivity. Qed.
Lemma at_pos_from {E} B c s : at_pos B c s -> @slice_from E B c = Ok s.
Proof. intros (p & -> & ->). apply slice_from_app. reflexivity. Qed.
Lemma at_pos_be B c k v s : at_pos B c (enc_be k v ++ s) -> v < 256 ^ N.of_nat k -> be_at B c k = Ok v.
Proof. intros (p & -> & ->) H. rewrite be_at_skip, Nat.sub_diag by lia. apply be_at_enc, H. Qed.
Lemma at_pos_cons B c x s : at_pos B c (x :: s) -> at_pos B (c + 1) s.
Proof. intros H. apply (at_pos_next B c [x] s H). Qed.

Lemma reads_step {A X} (f : list N -> nat -> res (A * nat)) E (v : A) B c R (k : A * nat -> res X) out :
  reads f E v -> at_pos B c (E ++ R) ->
  (forall c', c' = (c + length E)%nat -> at_pos B c' R -> k (v, c') = out) ->
  bind (f B c) k = out.
Proof. intros Hr Hp K. rewrite (Hr B c R Hp). cbn [bind]. apply K; [reflexivity|]. apply at_pos_next, Hp. Qed.
(* [step L] where L proves [reads f E v] *)
Ltac step L := match goal with H : at_pos ?B ?c _ |- bind (?f ?B ?c) _ = _ =>
  eapply (reads_step f); [ | exact H | ]; [solve [L] | clear H; let Hc := fresh "Hc" in intros ? Hc H; clear Hc] end.

Lemma reads_lv x e : nlen x < 256 -> reads (fun B c => lv_at B c e) (lv x) x.
Proof. intros Hx B c R (p & -> & ->). rewrite lv_at_here by auto. rewrite lv_len. do 2 f_equal. lia. Qed.
Lemma reads_many {A} (dec : list N -> res A) size enc xs :
  Forall (fun x => (forall r, dec (enc x ++ r) = Ok x) /\ size x = length (enc x)) xs ->
  reads (many dec size (length xs)) (enc_all enc xs) xs.
Proof. intros H B c R (p & -> & ->). apply many_rt; auto. Qed.
