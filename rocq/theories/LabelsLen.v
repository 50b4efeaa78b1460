(* LabelsLen.v - the lengths of names as they are written and read. *)
From Verif Require Import Base BaseFacts Digits DigitsFacts Labels LabelsFacts.
Local Open Scope N_scope.
Notation length := List.length.

Lemma utf8_char_len c : (1 <= length (utf8_char c))%nat /\ (length (utf8_char c) = 1%nat -> c < 128).
Proof. unfold utf8_char. destruct (N.ltb_spec c 128); [cbn; lia|]. destruct (c <? 2048); [cbn; lia|]. destruct (c <? 65536); cbn; lia. Qed.
Lemma utf8_len s : (length s <= length (utf8 s))%nat /\ (length (utf8 s) = length s -> Forall (fun c => c < 128) s).
Proof.
  induction s as [|c s [IH1 IH2]]; [split; [reflexivity|constructor]|]. unfold utf8 in *. cbn [map concat length]. rewrite app_length.
  destruct (utf8_char_len c) as [C1 C2]. split; [lia|]. intros E. constructor; [apply C2; lia|apply IH2; lia].
Qed.
Lemma labels_loop_len {E} f : forall d p, @labels_loop E f d = Ok p -> length p = length d.
Proof.
  induction f as [|f IH]; intros [|n r] p H; cbn [labels_loop] in H; try discriminate H; try (apply Ok_inj in H; subst; reflexivity).
  destruct (Nat.leb_spec (N.to_nat n) (length r)); [|discriminate H]. destruct (labels_loop f _) as [q| | |] eqn:Q; try discriminate H.
  cbn [bind] in H. apply Ok_inj in H. subst p. apply IH in Q. rewrite app_length, firstn_length. cbn [length]. rewrite Q, skipn_length. lia.
Qed.
Lemma removelast_len {A} (l : list A) : length (removelast l) = (length l - 1)%nat.
Proof. induction l as [|x l IH]; [reflexivity|]. destruct l as [|y l]; [reflexivity|]. change (length (x :: removelast (y :: l)) = (length (x :: y :: l) - 1)%nat). cbn [length] in *. rewrite IH. lia. Qed.
Lemma labels_encode_len s : length (labels_encode s) = S (length (utf8 s)).
Proof.
  unfold labels_encode. induction s as [|c s IH]; [reflexivity|]. cbn [split_dot]. unfold utf8 in *. destruct (N.eqb_spec c 46) as [->|C].
  - cbn [map concat]. rewrite app_length, IH. reflexivity.
  - pose proof (split_dot_nonempty s) as Ne. destruct (split_dot s) as [|w ws]; [congruence|]. cbn [map concat] in *. rewrite !app_length in *. cbn [length] in *.
    rewrite app_length. lia.
Qed.
Lemma labels_kept {E} s : @labels_decode E (labels_encode s) = Ok s -> Forall (fun c => c < 128) s.
Proof.
  unfold labels_decode. intros H. destruct (labels_loop _ _) as [p| | |] eqn:P; try discriminate H. cbn [bind] in H. apply Ok_inj in H.
  apply labels_loop_len in P. apply (f_equal (@length N)) in H. rewrite removelast_len, P, labels_encode_len in H. apply utf8_len. lia.
Qed.
Lemma utf8_twice s : bytes s -> (length (utf8 s) <= 2 * length s)%nat.
Proof.
  intros B. induction B as [|c s C _ IH]; [cbn; lia|]. unfold utf8 in *. cbn [map concat length]. rewrite app_length.
  assert (length (utf8_char c) <= 2)%nat; [|lia]. unfold utf8_char. destruct (c <? 128); [cbn; lia|]. destruct (N.ltb_spec c 2048); [cbn; lia|]. unfold byte in C. lia.
Qed.

Lemma labels_loop_bytes {E} f : forall d p, bytes d -> @labels_loop E f d = Ok p -> bytes p.
Proof.
  induction f as [|f IH]; intros [|n r] p B H; cbn [labels_loop] in H; try discriminate H; try (apply Ok_inj in H; subst; constructor).
  destruct (Nat.leb_spec (N.to_nat n) (length r)); [|discriminate H]. destruct (labels_loop f _) as [q| | |] eqn:Q; try discriminate H.
  cbn [bind] in H. apply Ok_inj in H. subst p. inversion B; subst. apply Forall_app. split; [apply bytes_firstn; assumption|].
  constructor; [reflexivity|]. apply (IH _ _ (bytes_skipn _ _ ltac:(eassumption)) Q).
Qed.
Lemma removelast_in {A} (l : list A) x : In x (removelast l) -> In x l.
Proof. induction l as [|y [|z l] IH]; [auto|intros []|]. intros [->|H]; [left; reflexivity|right; apply IH, H]. Qed.
Lemma labels_decode_bytes {E} d s : bytes d -> @labels_decode E d = Ok s -> bytes s /\ length s = (length d - 1)%nat.
Proof.
  unfold labels_decode. intros B H. destruct (labels_loop _ _) as [p| | |] eqn:P; try discriminate H. cbn [bind] in H. apply Ok_inj in H. subst s.
  split; [|rewrite removelast_len, (labels_loop_len _ _ _ P); reflexivity]. pose proof (labels_loop_bytes _ _ _ B P) as Q.
  unfold bytes in *. rewrite Forall_forall in *. intros x I. apply Q, removelast_in, I.
Qed.
Lemma tbcd_encode_most s : (length (tbcd_encode s) <= (length s + 1) / 2)%nat.
Proof.
  unfold tbcd_encode. assert (L : (length (Digits.filter_map to_digit s) <= length s)%nat).
  { induction s as [|c s IH]; [reflexivity|]. cbn [Digits.filter_map]. destruct (to_digit c); cbn [length]; lia. }
  destruct (Nat.odd _) eqn:O; rewrite tbcd_pairs_length, ?app_length; cbn [length]; apply Nat.div_le_mono; lia.
Qed.
