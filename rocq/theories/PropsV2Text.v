(* PropsV2Text.v - text in GTPv2-C elements: which octets are UTF-8 and what is made of those that are not
   (C64). The decoders of the model are compared with the encoding of single characters. *)
From Verif Require Import BaseFacts V2Base Labels V2Common V2OkCommon V2CommonFacts V2IeE V2IeEFacts V2Forward.
Local Open Scope N_scope.

(* [begins n b]: the first [n] octets of [b] are octets that some character starts with *)
Definition begins (n : nat) (b : list N) : Prop :=
  (n <= length b)%nat /\ exists c t, scalar c /\ utf8_char c = firstn n b ++ t.
(* [broken b n]: the longest start of a character at the start of [b] has [n] octets, or there is none and
   [n] is 1 *)
Definition broken (b : list N) (n : nat) : Prop :=
  (n = 1 \/ begins n b)%nat /\ (1 <= n)%nat /\ forall k, begins k b -> (k <= n)%nat.
(* What text octets stand for (Unicode, "substitution of maximal subparts"): characters, and U+FFFD for
   each longest start of a character that is not completed. *)
Inductive text_is : list N -> list N -> Prop :=
| text_end : text_is [] []
| text_char c r s : scalar c -> text_is r s -> text_is (utf8_char c ++ r) (c :: s)
| text_bad b n s : b <> [] -> (forall c r, scalar c -> b <> utf8_char c ++ r) -> broken b n ->
    text_is (skipn n b) s -> text_is b (65533 :: s).

Definition shape (l : list N) : Prop :=
  match l with
  | [a] => a < 128
  | [a; d] => 194 <= a <= 223 /\ cont d = true
  | [a; d; e] => 224 <= a <= 239 /\ second_ok a d = true /\ cont e = true
  | [a; d; e; f] => 240 <= a <= 244 /\ second_ok a d = true /\ cont e = true /\ cont f = true
  | _ => False
  end.
Lemma cont_range d : cont d = true <-> 128 <= d <= 191.
Proof. unfold cont. destruct (N.leb_spec 128 d), (N.leb_spec d 191); cbn; split; try lia; discriminate. Qed.
Lemma second_range a d : second_ok a d = true <->
  128 <= d <= 191 /\ (a = 224 -> 160 <= d) /\ (a = 237 -> d <= 159) /\ (a = 240 -> 144 <= d) /\ (a = 244 -> d <= 143).
Proof.
  unfold second_ok. destruct (N.eqb_spec a 224); [|destruct (N.eqb_spec a 237); [|destruct (N.eqb_spec a 240); [|destruct (N.eqb_spec a 244)]]];
    rewrite ?cont_range; rewrite ?andb_true_iff, ?N.leb_le; lia.
Qed.
Lemma char_shape c : scalar c -> shape (utf8_char c).
Proof.
  intros H. unfold scalar in H. unfold utf8_char.
  destruct (N.ltb_spec c 128); [exact H0|]. destruct (N.ltb_spec c 2048); [cbn [shape]; rewrite cont_range; lia|].
  destruct (N.ltb_spec c 65536); cbn [shape]; rewrite second_range, !cont_range; lia.
Qed.
Lemma shape_char l : shape l -> exists c, scalar c /\ utf8_char c = l.
Proof.
  destruct l as [|a [|d [|e [|f [|]]]]]; cbn [shape]; try contradiction.
  - intros H. exists a. unfold utf8_char, scalar. destruct (N.ltb_spec a 128); [split; [lia|reflexivity]|lia].
  - rewrite cont_range. intros [H1 H2]. exists ((a - 192) * 64 + (d - 128)). unfold utf8_char, scalar.
    destruct (N.ltb_spec ((a - 192) * 64 + (d - 128)) 128); [lia|]. destruct (N.ltb_spec ((a - 192) * 64 + (d - 128)) 2048); [|lia].
    split; [lia|]. repeat (f_equal; try lia).
  - rewrite second_range, cont_range. intros (H1 & H2 & H3). exists ((a - 224) * 4096 + (d - 128) * 64 + (e - 128)). set (c := (a - 224) * 4096 + (d - 128) * 64 + (e - 128)).
    assert (2048 <= c < 65536 /\ scalar c) as [Hc Hs] by (unfold scalar, c; lia). split; [exact Hs|]. unfold utf8_char.
    destruct (N.ltb_spec c 128); [lia|]. destruct (N.ltb_spec c 2048); [lia|]. destruct (N.ltb_spec c 65536); [|lia]. unfold c. repeat (f_equal; try lia).
  - rewrite second_range, !cont_range. intros (H1 & H2 & H3 & H4). exists ((a - 240) * 262144 + (d - 128) * 4096 + (e - 128) * 64 + (f - 128)). set (c := (a - 240) * 262144 + (d - 128) * 4096 + (e - 128) * 64 + (f - 128)).
    assert (65536 <= c < 1114112) as Hc by (unfold c; lia). split; [unfold scalar; lia|]. unfold utf8_char.
    destruct (N.ltb_spec c 128); [lia|]. destruct (N.ltb_spec c 2048); [lia|]. destruct (N.ltb_spec c 65536); [lia|]. unfold c. repeat (f_equal; try lia).
Qed.
Lemma begins_less j k b : begins k b -> (j <= k)%nat -> begins j b.
Proof.
  intros (L & c & t & Hc & E) H. split; [lia|]. exists c, (skipn j (firstn k b) ++ t). split; [exact Hc|].
  rewrite E, app_assoc. f_equal. replace (firstn j b) with (firstn j (firstn k b)) by (rewrite firstn_firstn; f_equal; lia). symmetry. apply firstn_skipn.
Qed.
Lemma broken_at b n : (n = 1 \/ begins n b)%nat -> (1 <= n)%nat -> ~ begins (S n) b -> broken b n.
Proof.
  intros H1 H2 H3. split; [exact H1|]. split; [exact H2|]. intros k Hk. destruct (Nat.le_gt_cases k n); [assumption|].
  exfalso. apply H3. apply (begins_less _ k); [exact Hk|lia].
Qed.
Lemma broken_one b n k : broken b n -> broken b k -> n = k.
Proof. intros (A1 & A2 & A3) (B1 & B2 & B3). destruct A1 as [->|A1], B1 as [->|B1]; auto; try (specialize (A3 _ B1)); try (specialize (B3 _ A1)); lia. Qed.
Lemma begins_shape n b : begins n b -> exists t, shape (firstn n b ++ t).
Proof. intros (_ & c & t & Hc & E). exists t. rewrite <- E. apply char_shape, Hc. Qed.
Lemma shape_begins n b t : (n <= length b)%nat -> shape (firstn n b ++ t) -> begins n b.
Proof. intros L H. split; [exact L|]. destruct (shape_char _ H) as (c & Hc & E). exists c, t. auto. Qed.
Lemma not_char b : (forall l r, shape l -> b <> l ++ r) -> forall c r, scalar c -> b <> utf8_char c ++ r.
Proof. intros H c r Hc. apply H, char_shape, Hc. Qed.

Definition replaced (b : list N) : Prop :=
  (forall c r, scalar c -> b <> utf8_char c ++ r) /\ exists n, broken b n /\ utf8_lossy b = 65533 :: utf8_lossy (skipn n b).
Lemma cons_false (d : N) : cont d = false <-> ~ 128 <= d <= 191.
Proof. rewrite <- cont_range. destruct (cont d); split; congruence. Qed.
Lemma second_false a d : second_ok a d = false <-> second_ok a d <> true.
Proof. destruct (second_ok a d); split; congruence. Qed.
Ltac no_char := apply not_char; intros [|? [|? [|? [|? [|]]]]] ? Hs E; cbn [shape] in Hs; try contradiction; cbn [app] in E; try discriminate E; injection E; intros; subst;
  rewrite ?second_false, ?cons_false, ?second_range, ?cont_range in *; try (lia || congruence || tauto).
Ltac no_more := let L := fresh in let c := fresh in let t := fresh in let E := fresh in let Hs := fresh in
  intros Hb; pose proof (proj1 Hb) as L; cbn [length] in L; try lia; apply begins_shape in Hb as (t & Hs); cbn [firstn app] in Hs;
  destruct t as [|? [|? [|? [|]]]]; cbn [shape] in Hs; try contradiction; rewrite ?second_false, ?cons_false, ?second_range, ?cont_range in *; try (lia || congruence || tauto).
Lemma bools a : (128 <= a -> (a <? 128) = false) /\ (194 <= a <= 223 -> (194 <=? a) && (a <=? 223) = true) /\ (a < 194 \/ 223 < a -> (194 <=? a) && (a <=? 223) = false) /\
  (224 <= a <= 239 -> (224 <=? a) && (a <=? 239) = true) /\ (a < 224 \/ 239 < a -> (224 <=? a) && (a <=? 239) = false) /\
  (240 <= a <= 244 -> (240 <=? a) && (a <=? 244) = true) /\ (a < 240 \/ 244 < a -> (240 <=? a) && (a <=? 244) = false).
Proof.
  destruct (N.ltb_spec a 128), (N.leb_spec 194 a), (N.leb_spec a 223), (N.leb_spec 224 a), (N.leb_spec a 239), (N.leb_spec 240 a), (N.leb_spec a 244); cbn [andb]; repeat split; lia || reflexivity.
Qed.
Ltac heads a := destruct (bools a) as (B1 & B2 & B3 & B4 & B5 & B6 & B7).
Lemma lossy_step a r : (exists c q, scalar c /\ a :: r = utf8_char c ++ q /\ utf8_lossy (a :: r) = c :: utf8_lossy q) \/ replaced (a :: r).
Proof.
  assert (Go : forall l q, a :: r = l ++ q -> shape l -> exists c q, scalar c /\ a :: r = utf8_char c ++ q /\ utf8_lossy (a :: r) = c :: utf8_lossy q).
  { intros l q E Hs. destruct (shape_char l Hs) as (c & Hc & El). exists c, q. subst l. rewrite E. auto using utf8_lossy_char. }
  assert (K : a < 128 \/ (128 <= a < 194 \/ 244 < a) \/ 194 <= a <= 223 \/ 224 <= a <= 239 \/ 240 <= a <= 244) by lia.
  heads a. destruct K as [K|[K|[K|[K|K]]]].
  - left. apply (Go [a] r eq_refl K).
  - right. split; [no_char|]. exists 1%nat. split; [apply broken_at; [auto|lia|destruct r; no_more]|].
    cbn [utf8_lossy skipn]. rewrite B1, B3, B5, B7 by lia. reflexivity.
  - destruct r as [|d r].
    + right. split; [no_char|]. exists 1%nat. split; [apply broken_at; [auto|lia|no_more]|]. cbn [utf8_lossy skipn]. rewrite B1, B2 by lia. reflexivity.
    + destruct (cont d) eqn:Ed; [left; apply (Go [a; d] r eq_refl); split; [lia|exact Ed]|].
      right. split; [no_char|]. exists 1%nat. split; [apply broken_at; [auto|lia|no_more]|].
      change (skipn 1 (a :: d :: r)) with (d :: r). cbn [utf8_lossy]. rewrite B1, B2, Ed by lia. reflexivity.
  - destruct r as [|d r].
    { right. split; [no_char|]. exists 1%nat. split; [apply broken_at; [auto|lia|no_more]|]. cbn [utf8_lossy skipn]. rewrite B1, B3, B4 by lia. reflexivity. }
    destruct (second_ok a d) eqn:Ed.
    2: { right. split; [no_char|]. exists 1%nat. split; [apply broken_at; [auto|lia|no_more]|].
         change (skipn 1 (a :: d :: r)) with (d :: r). cbn [utf8_lossy]. rewrite B1, B3, B4, Ed by lia. reflexivity. }
    assert (B2' : forall q, begins 2 (a :: d :: q)) by (intros q; apply (shape_begins 2 _ [128]); [cbn; lia|cbn [firstn app shape]; auto]).
    destruct r as [|e r].
    { right. split; [no_char|]. exists 2%nat. split; [apply broken_at; [auto|lia|no_more]|]. cbn [utf8_lossy skipn]. rewrite B1, B3, B4, Ed by lia. reflexivity. }
    destruct (cont e) eqn:Ee; [left; apply (Go [a; d; e] r eq_refl); repeat split; try lia; assumption|].
    right. split; [no_char|]. exists 2%nat. split; [apply broken_at; [auto|lia|no_more]|].
    change (skipn 2 (a :: d :: e :: r)) with (e :: r). cbn [utf8_lossy]. rewrite B1, B3, B4, Ed, Ee by lia. reflexivity.
  - destruct r as [|d r].
    { right. split; [no_char|]. exists 1%nat. split; [apply broken_at; [auto|lia|no_more]|]. cbn [utf8_lossy skipn]. rewrite B1, B3, B5, B6 by lia. reflexivity. }
    destruct (second_ok a d) eqn:Ed.
    2: { right. split; [no_char|]. exists 1%nat. split; [apply broken_at; [auto|lia|no_more]|].
         change (skipn 1 (a :: d :: r)) with (d :: r). cbn [utf8_lossy]. rewrite B1, B3, B5, B6, Ed by lia. reflexivity. }
    assert (B2' : forall q, begins 2 (a :: d :: q)) by (intros q; apply (shape_begins 2 _ [128; 128]); [cbn; lia|cbn [firstn app shape]; auto]).
    destruct r as [|e r].
    { right. split; [no_char|]. exists 2%nat. split; [apply broken_at; [auto|lia|no_more]|]. cbn [utf8_lossy skipn]. rewrite B1, B3, B5, B6, Ed by lia. reflexivity. }
    destruct (cont e) eqn:Ee.
    2: { right. split; [no_char|]. exists 2%nat. split; [apply broken_at; [auto|lia|no_more]|].
         change (skipn 2 (a :: d :: e :: r)) with (e :: r). cbn [utf8_lossy]. rewrite B1, B3, B5, B6, Ed, Ee by lia. reflexivity. }
    assert (B3' : forall q, begins 3 (a :: d :: e :: q)) by (intros q; apply (shape_begins 3 _ [128]); [cbn; lia|cbn [firstn app shape]; auto]).
    destruct r as [|f r].
    { right. split; [no_char|]. exists 3%nat. split; [apply broken_at; [auto|lia|no_more]|]. cbn [utf8_lossy skipn]. rewrite B1, B3, B5, B6, Ed, Ee by lia. reflexivity. }
    destruct (cont f) eqn:Ef; [left; apply (Go [a; d; e; f] r eq_refl); repeat split; try lia; assumption|].
    right. split; [no_char|]. exists 3%nat. split; [apply broken_at; [auto|lia|no_more]|].
    change (skipn 3 (a :: d :: e :: f :: r)) with (f :: r). cbn [utf8_lossy]. rewrite B1, B3, B5, B6, Ed, Ee, Ef by lia. reflexivity.
Qed.

Lemma lossy_is : forall n b, (length b <= n)%nat -> text_is b (utf8_lossy b).
Proof.
  induction n as [|n IH]; intros b L.
  - destruct b; [constructor|cbn in L; lia].
  - destruct b as [|a r]; [constructor|]. destruct (lossy_step a r) as [(c & q & Hc & E & El)|(H & k & Hk & El)]; rewrite El.
    + rewrite E. constructor; [exact Hc|]. apply IH. apply (f_equal (@length N)) in E. rewrite app_length in E.
      pose proof (char_shape c Hc) as S0. destruct (utf8_char c); [contradiction|]. cbn [length] in *. lia.
    + apply (text_bad _ k); [discriminate|exact H|exact Hk|]. apply IH. destruct Hk as (_ & Hk & _). rewrite skipn_length. cbn [length] in *. lia.
Qed.
(* Text that need not be UTF-8 (the APN in an MM context) is read as that, and as nothing else. *)
Theorem C64_text_replaced : forall b s, utf8_lossy b = s <-> text_is b s.
Proof.
  intros b s. split; [intros <-; apply (lossy_is (length b)); lia|].
  induction 1 as [|c r s Hc _ IH|b n s Hb Hn Hk _ IH]; [reflexivity|rewrite utf8_lossy_char, IH by exact Hc; reflexivity|].
  destruct b as [|a r]; [contradiction|]. destruct (lossy_step a r) as [(c & q & Hc & E & _)|(_ & k & Hk' & El)].
  - exfalso. exact (Hn c q Hc E).
  - rewrite El. rewrite (broken_one _ _ _ Hk' Hk), IH. reflexivity.
Qed.
Print Assumptions C64_text_replaced.
(* Text that has to be UTF-8 (the names in the monitoring events) is accepted exactly if it is. *)
Lemma strict_complete s : Forall scalar s -> utf8_strict (utf8 s) = Some s.
Proof. intros H. apply utf8_strict_utf8. exact H. Qed.
Theorem C64_text_strict : forall b s, utf8_strict b = Some s <-> Forall scalar s /\ b = utf8 s.
Proof.
  intros b s. split.
  - intros H. destruct (utf8_strict_inv _ _ _ (le_n _) H) as [A B]. auto.
  - intros [A ->]. apply strict_complete, A.
Qed.
Print Assumptions C64_text_strict.
(* The text reported is Unicode in any case, and is the octets that were received exactly if these are UTF-8. *)
Theorem C64_text_unicode : forall b, Forall scalar (utf8_lossy b) /\
  (utf8 (utf8_lossy b) = b <-> exists s, Forall scalar s /\ b = utf8 s) /\ (utf8_strict b <> None -> utf8_strict b = Some (utf8_lossy b)).
Proof.
  intros b. assert (A : Forall scalar (utf8_lossy b)).
  { pose proof (lossy_is _ b (le_n _)) as H. induction H as [|c r s Hc _ IH|b n s Hb Hn Hk _ IH]; constructor; auto. right. lia. }
  split; [exact A|]. split; [split|].
  - intros E. exists (utf8_lossy b). auto.
  - intros (s & Hs & ->). rewrite utf8_lossy_utf8 by exact Hs. reflexivity.
  - intros H. destruct (utf8_strict b) as [s|] eqn:E; [|contradiction]. apply C64_text_strict in E as [Hs ->]. rewrite utf8_lossy_utf8 by exact Hs. reflexivity.
Qed.
Print Assumptions C64_text_unicode.

(* "a", a euro sign without its last octet, a surrogate, "b": the start of the euro sign becomes one U+FFFD, each
   octet of the surrogate another *)
Example C64_text_case : text_is [97; 226; 130; 237; 160; 128; 98] [97; 65533; 65533; 65533; 65533; 98] /\
  utf8_strict [97; 226; 130; 172] = Some [97; 8364] /\ utf8_strict [237; 160; 128] = None.
Proof. split; [apply C64_text_replaced|split]; reflexivity. Qed.
