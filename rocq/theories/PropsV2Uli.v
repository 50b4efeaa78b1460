(* PropsV2Uli.v - C99: what is sent of a user location that was given any list of locations, in any order. *)
From Verif Require Import Base BaseFacts V2Base V2BaseFacts V2Common V2IeF V2OkCommon V2OkF V2CommonFacts V2IeSpec V2IeFacts V2IeFFacts.
From Coq Require Import Sorted Permutation.
Local Open Scope N_scope.

(* --- specification --------------------------------------------------------------------------------------------------- *)
(* the kinds in the order in which TS 29.274 (8.21) sends them *)
Definition place (x : location) : nat :=
  match x with
  | Loc_Cgi _ => 0 | Loc_Sai _ => 1 | Loc_Rai _ => 2 | Loc_Tai _ => 3 | Loc_Ecgi _ => 4 | Loc_Lai _ => 5 | Loc_Macro _ => 6 | Loc_ExtMacro _ => 7
  end%nat.
(* the numbers of a location: the country and the network first *)
Definition numbers (x : location) : list N :=
  let net p := [p_mcc p; p_mnc p; if p_three p then 1 else 0] in
  match x with
  | Loc_Cgi v => net (cgi_plmn v) ++ [cgi_lac v; cgi_ci v]
  | Loc_Sai v => net (sai_plmn v) ++ [sai_lac v; sai_sac v]
  | Loc_Rai v => net (rai_plmn v) ++ [rai_lac v; rai_rac v]
  | Loc_Tai v => net (tai_plmn v) ++ [tai_tac v]
  | Loc_Ecgi v => net (ecgi_plmn v) ++ [ecgi_eci v]
  | Loc_Lai v => net (lai_plmn v) ++ [lai_lac v]
  | Loc_Macro v => net (me_plmn v) ++ [me_id v]
  | Loc_ExtMacro v => net (xe_plmn v) ++ [if xe_smenb v then 1 else 0; xe_id v]
  end.
(* as in a dictionary: the first number that differs decides *)
Inductive before : list N -> list N -> Prop :=
| before_end l : before [] l
| before_less x y a b : x < y -> before (x :: a) (y :: b)
| before_same x a b : before a b -> before (x :: a) (x :: b).
(* [chosen l s]: [s] has of every kind in [l] the least location and no other, in the order of the kinds *)
Definition chosen (l s : list location) : Prop :=
  StronglySorted (fun x y => (place x < place y)%nat) s /\ (forall x, In x s -> In x l) /\
  forall x, In x l -> exists y, In y s /\ place y = place x /\ before (numbers y) (numbers x).

(* --- the order ------------------------------------------------------------------------------------------------------- *)
Lemma key_before a : forall b, key_le a b = true <-> before a b.
Proof.
  induction a as [|x a IH]; intros b; [split; [constructor|reflexivity]|]. destruct b as [|y b]; cbn [key_le].
  { split; [discriminate|intros H; inversion H]. }
  destruct (N.ltb_spec x y) as [L|L]; [split; [intros _; apply before_less; exact L|reflexivity]|].
  destruct (N.eqb_spec x y) as [->|E].
  - rewrite IH. split; [apply before_same|]. intros H. inversion H; subst; [lia|assumption].
  - split; [discriminate|]. intros H. inversion H; subst; [lia|contradiction].
Qed.
Lemma before_refl a : before a a.
Proof. induction a; constructor; assumption. Qed.
Lemma before_trans a b c : before a b -> before b c -> before a c.
Proof.
  intros H. revert c. induction H as [l|x y a b L|x a b H IH]; intros c H2; [constructor|..].
  - inversion H2; subst; apply before_less; lia.
  - inversion H2; subst; [apply before_less; assumption|apply before_same, IH; assumption].
Qed.
Lemma before_anti a b : before a b -> before b a -> a = b.
Proof.
  intros H. induction H as [l|x y a b L|x a b H IH]; intros H2; inversion H2; subst; try lia; try reflexivity. f_equal. apply IH. assumption.
Qed.
Lemma before_total a : forall b, before a b \/ before b a.
Proof.
  induction a as [|x a IH]; intros b; [left; constructor|]. destruct b as [|y b]; [right; constructor|].
  destruct (N.lt_trichotomy x y) as [L|[->|L]]; [left; apply before_less; exact L| |right; apply before_less; exact L].
  destruct (IH b); [left|right]; apply before_same; assumption.
Qed.
Lemma flag_of (b : bool) : flag b 1 = if b then 1 else 0.
Proof. destruct b; reflexivity. Qed.
Lemma key_is x : loc_key x = (N.of_nat (place x) + 1) :: numbers x.
Proof. destruct x; unfold loc_key, numbers, plmn_key; rewrite ?flag_of; reflexivity. Qed.
Lemma kind_is x : loc_kind x = N.of_nat (place x) + 1.
Proof. destruct x; reflexivity. Qed.
Lemma same_location x y : place x = place y -> numbers x = numbers y -> x = y.
Proof.
  assert (B : forall b b' : bool, (if b then 1 else 0) = (if b' then 1 else 0) -> b = b') by (intros [] []; intros H; try reflexivity; discriminate).
  destruct x as [[[]]|[[]]|[[]]|[[]]|[[]]|[[]]|[[]]|[[]]], y as [[[]]|[[]]|[[]]|[[]]|[[]]|[[]]|[[]]|[[]]]; intros P; try discriminate P; cbn; intros E;
    injection E; intros; subst; repeat match goal with H : (if ?b then 1 else 0) = (if ?c then 1 else 0) |- _ => apply B in H; subst end; reflexivity.
Qed.

(* --- the sort -------------------------------------------------------------------------------------------------------- *)
Definition le_loc (x y : location) : Prop := before (loc_key x) (loc_key y).
Lemma insert_in x l : forall y, In y (loc_insert x l) <-> y = x \/ In y l.
Proof.
  induction l as [|z l IH]; intros y; cbn [loc_insert]; [cbn [In]; intuition|]. destruct (key_le _ _); cbn [In]; [intuition|]. rewrite IH. intuition.
Qed.
Lemma sort_in l : forall y, In y (loc_sort l) <-> In y l.
Proof. induction l as [|x l IH]; intros y; cbn [loc_sort In]; [reflexivity|]. rewrite insert_in, IH. intuition. Qed.
Lemma insert_sorted x l : StronglySorted le_loc l -> StronglySorted le_loc (loc_insert x l).
Proof.
  induction 1 as [|z l Hs IH Hf]; cbn [loc_insert]; [repeat constructor|]. destruct (key_le _ _) eqn:E.
  - apply key_before in E. constructor; [constructor; assumption|]. constructor; [exact E|]. rewrite Forall_forall in *. intros y Hy.
    exact (before_trans _ _ _ E (Hf y Hy)).
  - constructor; [exact IH|]. apply Forall_forall. intros y Hy. apply insert_in in Hy as [->|Hy]; [|rewrite Forall_forall in Hf; exact (Hf y Hy)].
    destruct (before_total (loc_key x) (loc_key z)) as [B|B]; [|exact B]. apply key_before in B. congruence.
Qed.
Lemma sort_sorted l : StronglySorted le_loc (loc_sort l).
Proof. induction l as [|x l IH]; cbn [loc_sort]; [constructor|]. apply insert_sorted. exact IH. Qed.

(* --- the first of each kind ------------------------------------------------------------------------------------------ *)
Fixpoint firsts (fl : N) (l : list location) : list location :=
  match l with
  | [] => []
  | x :: r => if N.land fl (2 ^ (loc_kind x - 1)) =? 0 then x :: firsts (N.lor fl (2 ^ (loc_kind x - 1))) r else firsts fl r
  end.
Lemma first_is l : forall fl, loc_first fl l = (kinds_flags fl (map loc_kind (firsts fl l)), enc_all loc_enc (firsts fl l)).
Proof.
  induction l as [|x l IH]; intros fl; [reflexivity|]. cbn [loc_first firsts]. destruct (_ =? 0); [|apply IH]. rewrite IH. reflexivity.
Qed.
Lemma firsts_in l : forall fl x, In x (firsts fl l) -> In x l /\ N.testbit fl (loc_kind x - 1) = false.
Proof.
  induction l as [|a l IH]; intros fl x; [intros []|]. cbn [firsts]. rewrite land_pow2. destruct (N.testbit fl (loc_kind a - 1)) eqn:T; cbn [negb].
  - intros H. destruct (IH _ _ H). split; [right|]; assumption.
  - intros [<-|H]; [split; [left; reflexivity|exact T]|]. destruct (IH _ _ H) as [H1 H2]. split; [right; exact H1|]. rewrite N.lor_spec in H2. apply orb_false_iff in H2. apply H2.
Qed.
Lemma le_kind x y : le_loc x y -> (place x <= place y)%nat.
Proof. unfold le_loc. rewrite !key_is. intros H. inversion H; subst; lia. Qed.
Lemma firsts_sorted l : StronglySorted le_loc l -> forall fl, StronglySorted (fun x y => (place x < place y)%nat) (firsts fl l).
Proof.
  induction 1 as [|a l Hs IH Hf]; intros fl; [constructor|]. cbn [firsts]. destruct (_ =? 0); [|apply IH]. constructor; [apply IH|].
  apply Forall_forall. intros y Hy. apply firsts_in in Hy as [Hy T]. rewrite Forall_forall in Hf. pose proof (le_kind _ _ (Hf y Hy)).
  assert (place a <> place y); [|lia]. intros E. rewrite N.lor_spec, !kind_is, E, N.pow2_bits_true, orb_true_r in T. discriminate.
Qed.
Lemma firsts_least l : StronglySorted le_loc l -> forall fl x, In x l -> N.testbit fl (loc_kind x - 1) = false ->
  exists y, In y (firsts fl l) /\ place y = place x /\ le_loc y x.
Proof.
  induction 1 as [|a l Hs IH Hf]; intros fl x; [intros []|]. cbn [firsts]. rewrite land_pow2. intros [<-|H] T.
  - rewrite T. cbn [negb]. exists a. split; [left; reflexivity|]. split; [reflexivity|apply before_refl].
  - destruct (N.testbit fl (loc_kind a - 1)) eqn:Ta; cbn [negb]; [apply IH; assumption|].
    destruct (Nat.eq_dec (place a) (place x)) as [E|E].
    + exists a. split; [left; reflexivity|]. split; [exact E|]. rewrite Forall_forall in Hf. exact (Hf x H).
    + destruct (IH (N.lor fl (2 ^ (loc_kind a - 1))) x H) as (y & Hy & Py); [|exists y; split; [right; exact Hy|exact Py]].
      rewrite N.lor_spec, T. cbn [orb]. apply N.pow2_bits_false. rewrite !kind_is. lia.
Qed.
Lemma chosen_firsts l : chosen l (firsts 0 (loc_sort l)).
Proof.
  split; [apply firsts_sorted, sort_sorted|]. split; [intros x H; apply sort_in; exact (proj1 (firsts_in _ _ _ H))|].
  intros x H. apply sort_in in H. destruct (firsts_least _ (sort_sorted l) 0 x H (N.bits_0 _)) as (y & Hy & P & B). exists y. split; [exact Hy|]. split; [exact P|].
  unfold le_loc in B. rewrite !key_is, P in B. inversion B; subst; [lia|assumption].
Qed.

Lemma sorted_kind (s : list location) x y : StronglySorted (fun x y => (place x < place y)%nat) s -> In x s -> In y s -> place x = place y -> x = y.
Proof.
  induction 1 as [|a s Hs IH Hf]; [intros []|]. rewrite Forall_forall in Hf. intros [<-|Hx] [<-|Hy] E; [reflexivity|specialize (Hf _ Hy); lia|specialize (Hf _ Hx); lia|exact (IH Hx Hy E)].
Qed.
Lemma sorted_same (s : list location) : StronglySorted (fun x y => (place x < place y)%nat) s ->
  forall s', StronglySorted (fun x y => (place x < place y)%nat) s' -> (forall x, In x s <-> In x s') -> s = s'.
Proof.
  induction 1 as [|a s Hs IH Hf]; intros s' Hs' HI.
  - destruct s' as [|b s']; [reflexivity|]. destruct (proj2 (HI b) (or_introl eq_refl)).
  - destruct Hs' as [|b s' Hs' Hf']; [destruct (proj1 (HI a) (or_introl eq_refl))|]. rewrite Forall_forall in Hf, Hf'.
    assert (E : a = b).
    { destruct (proj1 (HI a) (or_introl eq_refl)) as [E|Ha]; [congruence|]. destruct (proj2 (HI b) (or_introl eq_refl)) as [E|Hb]; [exact E|].
      specialize (Hf _ Hb). specialize (Hf' _ Ha). lia. }
    subst b. f_equal. apply IH; [exact Hs'|]. intros x. split; intros Hx.
    + destruct (proj1 (HI x) (or_intror Hx)) as [<-|K]; [specialize (Hf _ Hx); lia|exact K].
    + destruct (proj2 (HI x) (or_intror Hx)) as [<-|K]; [specialize (Hf' _ Hx); lia|exact K].
Qed.
Lemma chosen_incl l s s' : chosen l s -> chosen l s' -> forall x, In x s -> In x s'.
Proof.
  intros (S1 & I1 & L1) (S2 & I2 & L2) x Hx. destruct (L2 x (I1 x Hx)) as (y & Hy & Py & By). destruct (L1 y (I2 y Hy)) as (z & Hz & Pz & Bz).
  assert (z = x) by (apply (sorted_kind s); [exact S1|exact Hz|exact Hx|congruence]). subst z.
  rewrite (same_location x y); [exact Hy|congruence|exact (before_anti _ _ Bz By)].
Qed.

(* --- the property ---------------------------------------------------------------------------------------------------- *)
(* What is chosen is determined by the locations given. *)
Theorem C99_one_choice : forall l, exists! s, chosen l s.
Proof.
  intros l. exists (firsts 0 (loc_sort l)). split; [apply chosen_firsts|]. intros s H. pose proof (chosen_firsts l) as C.
  apply sorted_same; [apply C|apply H|]. intros x. split; apply (chosen_incl l); assumption.
Qed.
Print Assumptions C99_one_choice.

(* The element sent is that of the chosen locations. *)
Theorem C99_sent : forall t len ins l s, chosen l s ->
  Uli_marshal (mkIe t len ins l) = Uli_marshal (mkIe t len ins s).
Proof.
  intros t len ins l s H. assert (V : Uli_value l = Uli_value s).
  { destruct (C99_one_choice l) as (s0 & C & U). rewrite <- (U s H). rewrite (U _ (chosen_firsts l)). clear.
    assert (K : StronglySorted (fun a b => loc_kind a < loc_kind b) (firsts 0 (loc_sort l))).
    { pose proof (firsts_sorted _ (sort_sorted l) 0) as K. induction K as [|a v Hs IH Hf]; constructor; [exact IH|]. eapply Forall_impl; [|exact Hf].
      cbn beta. intros y Hy. rewrite !kind_is. lia. }
    unfold Uli_value. rewrite first_is, (loc_sort_id _ K), (loc_first_all _ K); [reflexivity|]. intros. apply N.bits_0. }
  unfold Uli_marshal, marshal_ie. cbn [ie_t ie_v ie_ins]. rewrite V. reflexivity.
Qed.
Print Assumptions C99_sent.

(* So neither the order of the locations nor repetitions matter. *)
Theorem C99_order : forall t len ins l l', (forall x, In x l <-> In x l') ->
  Uli_marshal (mkIe t len ins l) = Uli_marshal (mkIe t len ins l').
Proof.
  intros t len ins l l' E. destruct (C99_one_choice l) as (s & C & _). rewrite (C99_sent t len ins l s C). symmetry. apply C99_sent.
  destruct C as (S1 & I1 & L1). split; [exact S1|]. split; [intros x H; apply E, I1, H|intros x H; apply L1, E, H].
Qed.
Print Assumptions C99_order.

(* The receiver has the chosen locations, whatever follows the element, and in every build. *)
Lemma chosen_kinds s : StronglySorted (fun x y => (place x < place y)%nat) s -> StronglySorted (fun a b => loc_kind a < loc_kind b) s.
Proof.
  induction 1 as [|a v Hs IH Hf]; constructor; [exact IH|]. eapply Forall_impl; [|exact Hf]. cbn beta. intros y Hy. rewrite !kind_is. lia.
Qed.
Lemma octets_each (s : list location) : (length (enc_all loc_enc s) <= 7 * length s)%nat.
Proof.
  unfold enc_all. induction s as [|x s IH]; [reflexivity|]. cbn [map concat length]. rewrite app_length, loc_size.
  assert (loc_step (loc_kind x) <= 7)%nat by (apply Nat.leb_le; destruct x; reflexivity). lia.
Qed.
Lemma filter_short {A} (f : A -> bool) l : (length (filter f l) <= length l)%nat.
Proof. induction l as [|x l IH]; cbn [filter length]; [lia|]. destruct (f x); cbn [length]; lia. Qed.
Lemma sizes (s : list location) : Uli_ok s -> nlen (Uli_value s) <= 65531.
Proof.
  intros H. rewrite (Uli_value_ok s H). destruct H as [_ H].
  assert (K : (length s <= 8)%nat).
  { rewrite <- (map_length loc_kind s). rewrite <- (kinds_back (map loc_kind s)); [apply (filter_short _ [1; 2; 3; 4; 5; 6; 7; 8])|apply kinds_sorted; exact H|].
    apply Forall_forall. intros k Hk. apply in_map_iff in Hk as (x & <- & _). apply loc_kind_range. }
  pose proof (octets_each s). unfold nlen. cbn [length]. lia.
Qed.
Theorem C99_received : forall m len ins l s r, ins < 16 -> Forall location_ok l -> chosen l s ->
  exists n, Uli_unmarshal m (Uli_marshal (mkIe 86 len ins l) ++ r) = Ok (mkIe 86 n ins s) /\
    n + 4 = nlen (Uli_marshal (mkIe 86 len ins l)).
Proof.
  intros m len ins l s r Hi Hl H. rewrite (C99_sent 86 len ins l s H). destruct H as (S1 & I1 & _).
  assert (OK : Uli_ok s) by (split; [rewrite Forall_forall in *; intros x Hx; apply Hl, I1, Hx|apply chosen_kinds; exact S1]).
  exists (nlen (Uli_value s)). assert (W : wf_ie 86 Uli_value Uli_ok (mkIe 86 (nlen (Uli_value s)) ins s)) by (repeat split; try apply OK; try exact Hi; apply sizes; exact OK).
  change (Uli_marshal (mkIe 86 len ins s)) with (Uli_marshal (mkIe 86 (nlen (Uli_value s)) ins s)). split; [apply Uli_rt; exact W|].
  unfold Uli_marshal, marshal_ie. unfold nlen. rewrite tliv_length. cbn [ie_v]. lia.
Qed.
Print Assumptions C99_received.

(* Hence of two different locations of one kind only one arrives: the greater one is lost. *)
Theorem C99_second_lost : forall m len ins x y r, ins < 16 -> location_ok x -> location_ok y -> place x = place y -> before (numbers x) (numbers y) ->
  exists n, Uli_unmarshal m (Uli_marshal (mkIe 86 len ins [y; x]) ++ r) = Ok (mkIe 86 n ins [x]).
Proof.
  intros m len ins x y r Hi Hx Hy P B. destruct (C99_received m len ins [y; x] [x] r Hi) as (n & E & _); [repeat constructor; assumption| |exists n; exact E].
  split; [repeat constructor|]. split; [intros z [<-|[]]; right; left; reflexivity|]. intros z Hz. exists x. split; [left; reflexivity|].
  destruct Hz as [<-|[<-|[]]]; split; [exact P|exact B|reflexivity|apply before_refl].
Qed.
Print Assumptions C99_second_lost.

(* A cell, two tracking areas and a location area given in the wrong order. *)
Definition somewhere : list location :=
  [Loc_Ecgi (mkEcgi (mkPlmn 262 2 false) 12345); Loc_Tai (mkTai (mkPlmn 262 2 false) 9); Loc_Lai (mkLai (mkPlmn 262 1 false) 3); Loc_Tai (mkTai (mkPlmn 262 2 false) 7)].
Definition somewhere_sent : list location :=
  [Loc_Tai (mkTai (mkPlmn 262 2 false) 7); Loc_Ecgi (mkEcgi (mkPlmn 262 2 false) 12345); Loc_Lai (mkLai (mkPlmn 262 1 false) 3)].
Example C99_case : chosen somewhere somewhere_sent /\
  Uli_unmarshal Debug (Uli_marshal (mkIe 86 0 1 somewhere) ++ [1; 2]) = Ok (mkIe 86 18 1 somewhere_sent).
Proof.
  split; [|vm_compute; reflexivity]. split; [repeat constructor|]. split.
  - intros x. unfold somewhere, somewhere_sent. cbn [In]. tauto.
  - unfold somewhere. cbn [In]. intros x [<-|[<-|[<-|[<-|[]]]]];
      [exists (nth 1 somewhere_sent (Loc_Tai (mkTai (mkPlmn 0 0 false) 0)))|exists (nth 0 somewhere_sent (Loc_Tai (mkTai (mkPlmn 0 0 false) 0)))|exists (nth 2 somewhere_sent (Loc_Tai (mkTai (mkPlmn 0 0 false) 0)))|exists (nth 0 somewhere_sent (Loc_Tai (mkTai (mkPlmn 0 0 false) 0)))];
      (split; [cbn; tauto|]); (split; [reflexivity|]); apply key_before; vm_compute; reflexivity.
Qed.
