(* V2MsgFacts.v - the fields after fromvec, for any message whose arms fit its layout. *)
From Coq Require Import String.
From Verif Require Import Base BaseFacts.
From Verif Require Export V2MsgSpec.
Local Open Scope nat_scope.

(* ------------------------------------------------------------------------- *)
(* The decidable side conditions *)

Definition ins_eqb (a b : ins_cond) : bool :=
  match a, b with
  | InsIs x, InsIs y => (x =? y)%N
  | InsBelow x, InsBelow y => (x =? y)%N
  | InsAny, InsAny => true
  | _, _ => false
  end.
Lemma ins_eqb_eq a b : ins_eqb a b = true -> a = b.
Proof. destruct a, b; cbn; try discriminate; try reflexivity; rewrite N.eqb_eq; congruence. Qed.

Definition ins_apart (a b : ins_cond) : bool :=
  match a, b with
  | InsIs x, InsIs y => negb (x =? y)%N
  | InsIs x, InsBelow y | InsBelow y, InsIs x => (y <=? x)%N
  | _, _ => false
  end.
Lemma ins_apart_ok a b n : ins_apart a b = true -> ins_test a n = true -> ins_test b n = true -> False.
Proof. destruct a, b; cbn; intros; lia. Qed.

Lemma ins_test_in c n : ins_test c n = true <-> inst_in c n.
Proof. destruct c; cbn; [apply N.eqb_eq | apply N.ltb_lt | tauto]. Qed.

Definition arms_apart (a b : arm) : bool := negb (kind_eqb (r_kind a) (r_kind b)) || ins_apart (r_ins a) (r_ins b).

Fixpoint pairwise {A} (p : A -> A -> bool) (l : list A) : bool :=
  match l with [] => true | x :: r => forallb (p x) r && pairwise p r end.

Definition arm_flag (r : arm) : option nat :=
  match r_act r with
  | MandFirst k | MandLast k | PushMand k | PushMandFirst k => Some k
  | OptFirst | OptLast | Push => None
  end.

Definition flag_is (k : nat) (r : arm) : bool := match arm_flag r with Some j => j =? k | None => false end.

Definition count {A} (p : A -> bool) (l : list A) : nat := length (filter p l).

Definition is_nil {A} (l : list A) : bool := match l with [] => true | _ => false end.

(* the arm fits the field it fills *)
Definition arm_fits (d : message_def) (L : layout) (r : arm) : bool :=
  match nth_error L (r_slot r) with
  | None => false
  | Some f =>
      kind_eqb (r_kind r) (f_kind f) && existsb (ins_eqb (r_ins r)) (f_ins f) &&
      match f_keep f, r_act r with
      | KeepFirst, OptFirst => is_nil (nth (r_slot r) (md_init d) [])
      | KeepFirst, (MandFirst k) =>
          (count (fun q => r_slot q =? r_slot r) (md_arms d) =? 1) && (count (flag_is k) (md_arms d) =? 1)
      | KeepFirst, (PushMandFirst k) =>
          (count (fun q => r_slot q =? r_slot r) (md_arms d) =? 1) && (count (flag_is k) (md_arms d) =? 1)
          && is_nil (nth (r_slot r) (md_init d) [])
      | KeepLast, (OptLast | MandLast _) => true
      | KeepAll, (Push | PushMand _) => is_nil (nth (r_slot r) (md_init d) [])
      | _, _ => false
      end
  end.

Definition field_served (d : message_def) (p : nat * field_spec) : bool :=
  forallb (fun c => existsb (fun r => kind_eqb (r_kind r) (f_kind (snd p)) && ins_eqb (r_ins r) c && (r_slot r =? fst p)) (md_arms d))
          (f_ins (snd p)).

Definition numbered {A} (l : list A) : list (nat * A) := combine (seq 0 (length l)) l.

Definition good (d : message_def) (L : layout) : bool :=
  pairwise arms_apart (md_arms d) && forallb (arm_fits d L) (md_arms d) &&
  forallb (field_served d) (numbered L) && (length (md_init d) =? length L).

(* ------------------------------------------------------------------------- *)
(* List facts *)

Lemma pairwise_in {A} (p : A -> A -> bool) l a b :
  pairwise p l = true -> In a l -> In b l -> a = b \/ p a b = true \/ p b a = true.
Proof.
  induction l as [|x l IH]; cbn; [contradiction|]. rewrite andb_true_iff, forallb_forall. intros [H1 H2] [->|Ha] [->|Hb]; auto.
Qed.

Lemma numbered_in {A} (l : list A) i x : nth_error l i = Some x -> In (i, x) (numbered l).
Proof.
  unfold numbered. intros H. assert (Hi : i < length l) by (apply nth_error_Some; congruence).
  assert (G : forall (l : list A) i k x, nth_error l i = Some x -> In (k + i, x) (combine (seq k (length l)) l)).
  { clear. induction l as [|y l IH]; intros [|i] k x; cbn; try discriminate.
    - intros [= ->]. left. rewrite Nat.add_0_r. reflexivity.
    - intros H. right. rewrite <- Nat.add_succ_comm. apply IH. exact H. }
  apply (G l i 0 x H).
Qed.

Lemma in_numbered {A} (l : list A) i x : In (i, x) (numbered l) -> nth_error l i = Some x.
Proof.
  assert (G : forall (l : list A) i k x, In (i, x) (combine (seq k (length l)) l) -> k <= i /\ nth_error l (i - k) = Some x).
  { clear. induction l as [|y l IH]; intros i k x; cbn; [contradiction|]. intros [[= -> ->]|H].
    - rewrite Nat.sub_diag. cbn. split; auto.
    - apply IH in H. destruct H as [H1 H2]. split; [lia|]. destruct (i - k) eqn:E; [lia|]. cbn. replace (i - S k) with n in H2 by lia. exact H2. }
  intros H. apply G in H. rewrite Nat.sub_0_r in H. apply H.
Qed.

Lemma count_one {A} (p : A -> bool) l a b : count p l = 1 -> In a l -> In b l -> p a = true -> p b = true -> a = b.
Proof.
  unfold count. intros H Ha Hb Pa Pb.
  assert (A1 : In a (filter p l)) by (apply filter_In; auto). assert (B1 : In b (filter p l)) by (apply filter_In; auto).
  destruct (filter p l) as [|x [|y r]]; cbn in *; try discriminate; try contradiction.
  destruct A1, B1; congruence || contradiction.
Qed.

Lemma update_length l i v : length (update l i v) = length l.
Proof. revert i; induction l; destruct i; cbn; auto. Qed.
Lemma update_same l i v : i < length l -> nth i (update l i v) [] = v.
Proof. revert i; induction l; destruct i; cbn; intros; try lia; auto. apply IHl. lia. Qed.
Lemma update_other l i j v : i <> j -> nth j (update l i v) [] = nth j l [].
Proof. revert i j; induction l; destruct i, j; cbn; intros; try lia; auto. Qed.

Lemma filter_snoc {A} (p : A -> bool) l x : filter p (l ++ [x]) = filter p l ++ if p x then [x] else [].
Proof. rewrite filter_app. cbn. destruct (p x); reflexivity. Qed.

(* ------------------------------------------------------------------------- *)
(* belongs, decided *)

Definition fits (f : field_spec) (e : ie) : bool :=
  kind_eqb (kind_of e) (f_kind f) && existsb (fun c => ins_test c (ie_instance e)) (f_ins f).
Lemma fits_belongs f e : fits f e = true <-> belongs f e.
Proof.
  unfold fits, belongs. rewrite andb_true_iff, kind_eqb_eq, existsb_exists.
  split; intros [H1 [c [H2 H3]]]; split; auto; exists c; split; auto; apply ins_test_in; exact H3.
Qed.

Lemma sublist_filter {A} (P : A -> Prop) (p : A -> bool) l : (forall x, p x = true <-> P x) -> sublist P l (filter p l).
Proof.
  intros H. induction l as [|x l IH]; cbn; [constructor|]. destruct (p x) eqn:E.
  - apply sub_in; auto. apply H; exact E.
  - apply sub_out; auto. rewrite <- H, E. discriminate.
Qed.
Lemma sublist_unique {A} (P : A -> Prop) l s1 s2 : sublist P l s1 -> sublist P l s2 -> s1 = s2.
Proof. intros H. revert s2. induction H; intros s2 H2; inversion H2; subst; try contradiction; auto; f_equal; auto. Qed.

(* ------------------------------------------------------------------------- *)
(* The effect of fromvec *)

Definition keeps (k : keep) (s : list ie) : list ie :=
  match k with
  | KeepFirst => head_of s
  | KeepLast => head_of (rev s)
  | KeepAll => s
  end.
Definition or_else (d s : list ie) : list ie := match s with [] => d | _ => s end.

Section Fields.
Variables (d : message_def) (L : layout).
Hypothesis G : good d L = true.

Lemma g_apart : pairwise arms_apart (md_arms d) = true.
Proof. unfold good in G. rewrite !andb_true_iff in G. apply G. Qed.
Lemma g_fits r : In r (md_arms d) -> arm_fits d L r = true.
Proof. unfold good in G. rewrite !andb_true_iff, !forallb_forall in G. apply G. Qed.
Lemma g_served i f c : nth_error L i = Some f -> In c (f_ins f) ->
  exists r, In r (md_arms d) /\ r_kind r = f_kind f /\ r_ins r = c /\ r_slot r = i.
Proof.
  intros Hf Hc. unfold good in G. rewrite !andb_true_iff, !forallb_forall in G. destruct G as [[_ H] _].
  specialize (H _ (numbered_in _ _ _ Hf)). unfold field_served in H. rewrite forallb_forall in H. specialize (H _ Hc).
  rewrite existsb_exists in H. destruct H as [r [Hr H]]. cbn [fst snd] in H. rewrite !andb_true_iff, Nat.eqb_eq, kind_eqb_eq in H.
  destruct H as [[H1 H2] H3]. apply ins_eqb_eq in H2. exists r. auto.
Qed.
Lemma g_length : length (md_init d) = length L.
Proof. unfold good in G. rewrite !andb_true_iff, Nat.eqb_eq in G. apply G. Qed.

Lemma arm_unique a b e : In a (md_arms d) -> In b (md_arms d) -> arm_matches a e = true -> arm_matches b e = true -> a = b.
Proof.
  intros Ha Hb. unfold arm_matches. rewrite !andb_true_iff, !kind_eqb_eq. intros [Ka Ia] [Kb Ib].
  destruct (pairwise_in _ _ a b g_apart Ha Hb) as [H|[H|H]]; auto; exfalso;
    unfold arms_apart in H; rewrite orb_true_iff, negb_true_iff in H; destruct H as [H|H].
  - assert (X : kind_eqb (r_kind a) (r_kind b) = true) by (apply kind_eqb_eq; congruence). congruence.
  - exact (ins_apart_ok _ _ _ H Ia Ib).
  - assert (X : kind_eqb (r_kind b) (r_kind a) = true) by (apply kind_eqb_eq; congruence). congruence.
  - exact (ins_apart_ok _ _ _ H Ib Ia).
Qed.

Lemma find_arm e r : In r (md_arms d) -> arm_matches r e = true -> find (fun q => arm_matches q e) (md_arms d) = Some r.
Proof.
  intros Hr Hm. destruct (find _ _) as [q|] eqn:E.
  - apply find_some in E. destruct E. f_equal. eapply arm_unique; eassumption.
  - pose proof (find_none _ _ E _ Hr) as X. cbn in X. congruence.
Qed.

Lemma arm_field r : In r (md_arms d) -> exists f, nth_error L (r_slot r) = Some f /\ r_kind r = f_kind f /\ In (r_ins r) (f_ins f).
Proof.
  intros H. apply g_fits in H. unfold arm_fits in H. destruct (nth_error L (r_slot r)) as [f|]; [|discriminate].
  exists f. rewrite !andb_true_iff, kind_eqb_eq, existsb_exists in H. destruct H as [[H1 [c [H2 H3]]] _].
  apply ins_eqb_eq in H3. subst c. auto.
Qed.

Lemma matches_fits r f e : In r (md_arms d) -> nth_error L (r_slot r) = Some f -> arm_matches r e = true -> fits f e = true.
Proof.
  intros Hr Hf Hm. destruct (arm_field r Hr) as [g [Hg [Hk Hi]]]. rewrite Hf in Hg. injection Hg as <-.
  unfold arm_matches in Hm. rewrite andb_true_iff in Hm. unfold fits. rewrite andb_true_iff, <- Hk, existsb_exists. split; [apply Hm|].
  exists (r_ins r). split; auto. apply Hm.
Qed.

Lemma fits_matches i f e : nth_error L i = Some f -> fits f e = true ->
  exists r, In r (md_arms d) /\ r_slot r = i /\ arm_matches r e = true.
Proof.
  intros Hf He. unfold fits in He. rewrite andb_true_iff, kind_eqb_eq, existsb_exists in He. destruct He as [Hk [c [Hc Ht]]].
  destruct (g_served i f c Hf Hc) as [r [Hr [K [I S]]]]. exists r. repeat split; auto.
  unfold arm_matches. rewrite andb_true_iff, kind_eqb_eq, K, I. auto.
Qed.

(* two fields never claim the same IE *)
Lemma fits_unique i j f g e : nth_error L i = Some f -> nth_error L j = Some g -> fits f e = true -> fits g e = true -> i = j.
Proof.
  intros Hf Hg He He'. destruct (fits_matches _ _ _ Hf He) as [r [Hr [Si Mr]]]. destruct (fits_matches _ _ _ Hg He') as [q [Hq [Sj Mq]]].
  assert (r = q) by (eapply arm_unique; eassumption). congruence.
Qed.

Definition flag_seen (l : list ie) (k : nat) : Prop :=
  exists r e, In r (md_arms d) /\ arm_flag r = Some k /\ In e l /\ arm_matches r e = true.

Definition inv (l : list ie) (st : dstate) : Prop :=
  length (st_slots st) = length L /\
  (forall i f, nth_error L i = Some f -> nth i (st_slots st) [] = or_else (nth i (md_init d) []) (keeps (f_keep f) (filter (fits f) l))) /\
  (forall k, In k (st_flags st) <-> flag_seen l k).

Lemma flag_set_in st k : flag_set st k = true <-> In k (st_flags st).
Proof.
  unfold flag_set. rewrite existsb_exists. split.
  - intros [x [H E]]. apply Nat.eqb_eq in E. subst; auto.
  - intros H. exists k. split; auto. apply Nat.eqb_refl.
Qed.

Lemma flag_snoc l e k : flag_seen (l ++ [e]) k <-> flag_seen l k \/ exists r, In r (md_arms d) /\ arm_flag r = Some k /\ arm_matches r e = true.
Proof.
  unfold flag_seen. split.
  - intros [r [e' [H1 [H2 [H3 H4]]]]]. apply in_app_or in H3. destruct H3 as [H3|[->|[]]]; [left|right]; eauto 8.
  - intros [[r [e' [H1 [H2 [H3 H4]]]]]|[r [H1 [H2 H3]]]].
    + exists r, e'. repeat split; auto. apply in_or_app; auto.
    + exists r, e. repeat split; auto. apply in_or_app; right; left; auto.
Qed.

Lemma keeps_nil k : keeps k [] = [].
Proof. destruct k; reflexivity. Qed.
Lemma keeps_snoc_first s e : keeps KeepFirst (s ++ [e]) = match s with [] => [e] | x :: _ => [x] end.
Proof. destruct s; reflexivity. Qed.
Lemma keeps_snoc_last s e : keeps KeepLast (s ++ [e]) = [e].
Proof. cbn [keeps]. rewrite rev_app_distr. reflexivity. Qed.

Lemma inv_step l st e : inv l st -> inv (l ++ [e]) (step d st e).
Proof.
  intros (HL & HS & HF). unfold step. destruct (find (fun r => arm_matches r e) (md_arms d)) as [r|] eqn:Ef.
  2:{ assert (N : forall r, In r (md_arms d) -> arm_matches r e = false) by (intros r Hr; exact (find_none _ _ Ef _ Hr)).
      repeat split; auto.
      - intros i f Hf. rewrite filter_snoc. destruct (fits f e) eqn:E; [|rewrite app_nil_r; auto].
        destruct (fits_matches _ _ _ Hf E) as [r [Hr [_ M]]]. rewrite N in M by assumption. discriminate.
      - intros H. apply flag_snoc. left. apply HF. exact H.
      - intros H. apply HF. apply flag_snoc in H. destruct H as [H|[r [Hr [_ M]]]]; auto. rewrite N in M by assumption. discriminate. }
  apply find_some in Ef. destruct Ef as [Hr Hm].
  destruct (arm_field r Hr) as [f [Hf [Hk Hi]]]. pose proof (matches_fits r f e Hr Hf Hm) as Hfit.
  assert (Hs : r_slot r < length (st_slots st)) by (rewrite HL; apply nth_error_Some; congruence).
  assert (Hother : forall j g, nth_error L j = Some g -> j <> r_slot r -> filter (fits g) (l ++ [e]) = filter (fits g) l).
  { intros j g Hg Hj. rewrite filter_snoc. destruct (fits g e) eqn:E; [|apply app_nil_r].
    exfalso. apply Hj. symmetry. eapply fits_unique; [exact Hf|exact Hg|exact Hfit|exact E]. }
  assert (Hsame : filter (fits f) (l ++ [e]) = filter (fits f) l ++ [e]) by (rewrite filter_snoc, Hfit; reflexivity).
  assert (Hfl : forall k, flag_seen (l ++ [e]) k <-> flag_seen l k \/ arm_flag r = Some k).
  { intros k. rewrite flag_snoc. split; (intros [H|H]; [left; exact H|right]).
    - destruct H as [q [Hq [Fq Mq]]]. assert (r = q) by (eapply arm_unique; eassumption). subst; auto.
    - exists r; auto. }
  (* a new value in the slot of the arm *)
  assert (Hput : forall v fl, v = or_else (nth (r_slot r) (md_init d) []) (keeps (f_keep f) (filter (fits f) l ++ [e])) ->
     (forall k, In k fl <-> flag_seen l k \/ arm_flag r = Some k) -> inv (l ++ [e]) (mkSt (update (st_slots st) (r_slot r) v) fl)).
  { intros v fl Hv Hfl'. split; [|split]; cbn [st_slots st_flags].
    - rewrite update_length; auto.
    - intros i g Hg. destruct (Nat.eq_dec i (r_slot r)) as [->|Hne].
      + rewrite Hf in Hg. injection Hg as <-. rewrite update_same, Hsame by assumption. exact Hv.
      + rewrite update_other, (Hother i g) by auto. apply HS; auto.
    - intros k. rewrite Hfl', Hfl. tauto. }
  (* no change *)
  assert (Hid : or_else (nth (r_slot r) (md_init d) []) (keeps (f_keep f) (filter (fits f) l ++ [e])) =
                or_else (nth (r_slot r) (md_init d) []) (keeps (f_keep f) (filter (fits f) l)) ->
                (forall k, arm_flag r = Some k -> flag_seen l k) -> inv (l ++ [e]) st).
  { intros Hv Hk'. split; [|split]; auto.
    - intros i g Hg. destruct (Nat.eq_dec i (r_slot r)) as [->|Hne].
      + rewrite Hf in Hg. injection Hg as <-. rewrite Hsame, Hv. apply HS; auto.
      + rewrite (Hother i g) by auto. apply HS; auto.
    - intros k. rewrite Hfl, HF. split; [auto|intros [H|H]; auto]. }
  assert (Hold : nth (r_slot r) (st_slots st) [] = or_else (nth (r_slot r) (md_init d) []) (keeps (f_keep f) (filter (fits f) l))) by (apply HS; auto).
  pose proof (g_fits r Hr) as Hfits. unfold arm_fits in Hfits. rewrite Hf in Hfits. rewrite !andb_true_iff in Hfits. destruct Hfits as [_ Hact].
  (* for the MandFirst forms the flag says whether the field was already filled *)
  assert (Hflag : forall k, arm_flag r = Some k -> count (fun q => r_slot q =? r_slot r) (md_arms d) = 1 ->
            count (flag_is k) (md_arms d) = 1 -> (flag_seen l k <-> filter (fits f) l <> [])).
  { intros k Hk1 C1 C2. split.
    - intros [q [x [Hq [Fq [Hx Mx]]]]]. assert (q = r).
      { eapply count_one; try exact C2; auto; unfold flag_is; [rewrite Fq|rewrite Hk1]; apply Nat.eqb_refl. }
      subst q. intros Z. assert (In x (filter (fits f) l)) by (apply filter_In; split; auto; eapply matches_fits; eassumption).
      rewrite Z in H. contradiction.
    - intros H. destruct (filter (fits f) l) as [|x s] eqn:E; [congruence|].
      assert (Hx : In x (filter (fits f) l)) by (rewrite E; left; auto). apply filter_In in Hx. destruct Hx as [Hx Fx].
      destruct (fits_matches _ _ _ Hf Fx) as [q [Hq [Sq Mq]]].
      assert (q = r). { eapply count_one; try exact C1; auto; cbn; [rewrite Sq|]; apply Nat.eqb_refl. }
      subst q. exists r, x. auto. }
  unfold act. unfold arm_flag in Hfl, Hput, Hid, Hflag. rewrite Hold.
  destruct (r_act r) as [ | |k|k| |k|k]; destruct (f_keep f) eqn:Ek; try discriminate Hact.
  - (* OptFirst *) destruct (nth (r_slot r) (md_init d) []) eqn:Ei; [|discriminate Hact].
    destruct (filter (fits f) l) as [|x s] eqn:El; cbn [keeps head_of or_else app] in *.
    + apply Hput; auto. intros k. rewrite HF. split; [auto|intros [H|H]; [auto|discriminate]].
    + apply Hid; auto. discriminate.
  - (* OptLast *) apply Hput.
    + rewrite keeps_snoc_last. reflexivity.
    + intros k. rewrite HF. split; [auto|intros [H|H]; [auto|discriminate]].
  - (* MandFirst *) rewrite andb_true_iff, !Nat.eqb_eq in Hact. destruct Hact as [C1 C2]. specialize (Hflag k eq_refl C1 C2).
    destruct (flag_set st k) eqn:E.
    + apply flag_set_in, HF in E. apply Hid; [|intros j [= <-]; exact E]. apply Hflag in E. destruct (filter (fits f) l); [congruence|reflexivity].
    + assert (Z : filter (fits f) l = []).
      { destruct (filter (fits f) l) eqn:El; auto. assert (X : flag_seen l k) by (apply Hflag; discriminate). apply HF, flag_set_in in X. congruence. }
      apply Hput; [rewrite Z; reflexivity|]. intros j. cbn [In]. rewrite HF. split; intros [H|H]; try tauto; first [right; congruence|left; congruence].
  - (* MandLast *) apply Hput.
    + rewrite keeps_snoc_last. reflexivity.
    + intros j. cbn [In]. rewrite HF. split; intros [H|H]; try tauto; first [right; congruence|left; congruence].
  - (* Push *) destruct (nth (r_slot r) (md_init d) []) eqn:Ei; [|discriminate Hact]. cbn [keeps] in *. apply Hput.
    + destruct (filter (fits f) l); reflexivity.
    + intros k. rewrite HF. split; [auto|intros [H|H]; [auto|discriminate]].
  - (* PushMand *) destruct (nth (r_slot r) (md_init d) []) eqn:Ei; [|discriminate Hact]. cbn [keeps] in *. apply Hput.
    + destruct (filter (fits f) l); reflexivity.
    + intros j. cbn [In]. rewrite HF. split; intros [H|H]; try tauto; first [right; congruence|left; congruence].
  - (* PushMandFirst *) rewrite !andb_true_iff, !Nat.eqb_eq in Hact. destruct Hact as [[C1 C2] C3]. specialize (Hflag k eq_refl C1 C2).
    destruct (nth (r_slot r) (md_init d) []) eqn:Ei; [|discriminate C3].
    destruct (flag_set st k) eqn:E.
    + apply flag_set_in, HF in E. apply Hid; [|intros j [= <-]; exact E]. apply Hflag in E. destruct (filter (fits f) l); [congruence|reflexivity].
    + assert (Z : filter (fits f) l = []).
      { destruct (filter (fits f) l) eqn:El; auto. assert (X : flag_seen l k) by (apply Hflag; discriminate). apply HF, flag_set_in in X. congruence. }
      apply Hput; [rewrite Z; reflexivity|]. intros j. cbn [In]. rewrite HF. split; intros [H|H]; try tauto; first [right; congruence|left; congruence].
Qed.

Lemma inv_run l : inv l (fold_left (step d) l (mkSt (md_init d) [])).
Proof.
  induction l as [|e l IH] using rev_ind.
  - split; [|split]; cbn [fold_left st_slots st_flags filter].
    + apply g_length.
    + intros. rewrite keeps_nil. reflexivity.
    + intros k. split; [contradiction|intros [r [e [_ [_ [[] _]]]]]].
  - rewrite fold_left_app. cbn [fold_left]. apply inv_step. exact IH.
Qed.

Definition contents (l : list ie) : list (list ie) :=
  map (fun p => or_else (nth (fst p) (md_init d) []) (keeps (f_keep (snd p)) (filter (fits (snd p)) l))) (numbered L).

Lemma contents_nth l i f : nth_error L i = Some f ->
  nth_error (contents l) i = Some (or_else (nth i (md_init d) []) (keeps (f_keep f) (filter (fits f) l))).
Proof.
  intros Hf. unfold contents. rewrite nth_error_map.
  assert (X : nth_error (numbered L) i = Some (i, f)).
  { unfold numbered. assert (Q : forall (K : layout) i k f, nth_error K i = Some f -> nth_error (combine (seq k (length K)) K) i = Some (k + i, f)).
    { clear. induction K as [|y K IH]; intros [|i] k f; cbn; try discriminate.
      - intros [= ->]. rewrite Nat.add_0_r. reflexivity.
      - intros H. rewrite <- Nat.add_succ_comm. apply IH. exact H. }
    apply (Q L i 0 f Hf). }
  rewrite X. reflexivity.
Qed.

Lemma run_slots l : st_slots (fold_left (step d) l (mkSt (md_init d) [])) = contents l.
Proof.
  destruct (inv_run l) as (HL & HS & _). apply nth_ext with (d := []) (d' := []).
  - rewrite HL. unfold contents, numbered. rewrite map_length, combine_length, seq_length. lia.
  - intros i Hi. rewrite HL in Hi. destruct (nth_error L i) as [f|] eqn:Hf; [|apply nth_error_None in Hf; lia].
    rewrite (HS i f Hf). symmetry. apply nth_error_nth. apply contents_nth; exact Hf.
Qed.

Lemma run_flags l k : flag_set (fold_left (step d) l (mkSt (md_init d) [])) k = true <-> flag_seen l k.
Proof. destruct (inv_run l) as (_ & _ & HF). rewrite flag_set_in. apply HF. Qed.

End Fields.
