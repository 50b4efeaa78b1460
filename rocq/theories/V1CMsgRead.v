(* V1CMsgRead.v - what the GTPv1-C message decoders accept, and what they return. *)
From Verif Require Import BaseFacts V1USpec V1UFacts V1CHdrFacts V1CIeFacts V1CWireSpec V1CWireFacts V1CMsgSpec V1CMsgFacts.
From Coq Require Import Sorted.
Local Open Scope N_scope.

(* present elements are in ascending order when the codes of the layout are *)
Lemma sorted_present (P : N -> bool) : forall L fs, Forall2 field_ok L fs ->
  StronglySorted N.le (filter P (map f_code L)) ->
  (forall i, In (Some i) fs -> P (ie1_t i) = true) ->
  StronglySorted N.le (map ie1_t (flat_map (fun v => match v with Some i => [i] | None => [] end) fs)).
Proof.
  induction 1 as [|f v L fs Hf HF IH]; intros Hs HP; [constructor|].
  assert (HS : StronglySorted N.le (filter P (map f_code L))).
  { cbn [map filter] in Hs. destruct (P (f_code f)); [inversion Hs; assumption|exact Hs]. }
  assert (IH' := IH HS (fun i Hi => HP i (or_intror Hi))).
  destruct v as [i|]; cbn [flat_map app map]; [|exact IH']. constructor; [exact IH'|].
  cbn [field_ok] in Hf. destruct Hf as [E _]. pose proof (HP i (or_introl eq_refl)) as Pi. rewrite E in Pi.
  cbn [map filter] in Hs. rewrite Pi in Hs. inversion Hs as [|? ? _ Hall]; subst. rewrite E.
  apply Forall_forall. intros t Ht. apply in_map_iff in Ht as (j & Ej & Hj). apply in_flat_map in Hj as ([k|] & Hk & Hj); [|contradiction].
  destruct Hj as [->|[]]. rewrite Forall_forall in Hall. apply Hall. apply filter_In.
  split; [|rewrite <- Ej; apply HP; right; exact Hk].
  rewrite <- Ej. clear -HF Hk. induction HF as [|f v L fs Hf HF IH]; [contradiction|]. destruct Hk as [->|Hk].
  - left. symmetry. apply Hf.
  - right. apply IH, Hk.
Qed.

(* ------------------------------------------------------------------------- *)
(* [reads] is a function, and every step goes forward. *)
Lemma reads_det m b p l : reads m b p l -> forall l', reads m b p l' -> l = l'.
Proof.
  induction 1 as [p Hp|p t k i n l Ht Hk Hi Hn Hr IH]; intros l' H'; inversion H'; subst.
  - reflexivity.
  - exfalso. assert (p < length b)%nat by (apply nth_error_Some; congruence). lia.
  - exfalso. assert (p < length b)%nat by (apply nth_error_Some; congruence). lia.
  - assert (t0 = t) by congruence. subst. assert (k0 = k) by congruence. subst.
    match goal with A : ie1_unmarshal k m _ = Ok i0 |- _ => rewrite Hi in A; injection A as <- end.
    match goal with A : ie1_len m i = Ok n0 |- _ => rewrite Hn in A; injection A as <- end.
    f_equal. apply IH. assumption.
Qed.
Lemma reads_len m b p l : reads m b p l -> (length l + p <= length b \/ l = [])%nat.
Proof.
  induction 1 as [p Hp|p t k i n l Ht Hk Hi Hn Hr IH]; [right; reflexivity|left].
  assert (Hpl : (p < length b)%nat) by (apply nth_error_Some; congruence).
  destruct n as [|n].
  - exfalso. rewrite Nat.add_0_r in Hr.
    assert (E : l = (t, i) :: l).
    { eapply reads_det; [exact Hr|]. econstructor; try eassumption. rewrite Nat.add_0_r. exact Hr. }
    assert (length l = length ((t, i) :: l)) by (rewrite <- E; reflexivity). cbn [length] in H. lia.
  - cbn [length]. destruct IH as [IH|IH]; [lia|subst l; cbn [length]; lia].
Qed.

(* ------------------------------------------------------------------------- *)
(* The bookkeeping of the loop, separated from the decoding. *)
Fixpoint book (T : table1) (m : mode) (l : list (N * ie1)) (c : counts1) (fs : list (option ie1))
    : res (counts1 * list (option ie1)) :=
  match l with
  | [] => Ok (c, fs)
  | (t, i) :: l' =>
      match find_arm (t_arms T) t with
      | None => Err MessageInvalidMessageFormat
      | Some a =>
          let? n := next_count m (c t) in
          book T m l' (put1 c t n)
            (match arm_target (a_slots a) (c t) with Some s => set_field fs s i | None => fs end)
      end
  end.

Section Read.
Context (code : N) (L : list field1) (T : table1) (HT : check_table code L T = true) (m : mode).

Lemma find_arm_in t a : find_arm (t_arms T) t = Some a -> In a (t_arms T) /\ a_type a = t.
Proof. intros H. apply find_some in H as [H E]. apply N.eqb_eq in E. auto. Qed.
Lemma find_arm_kind t a : find_arm (t_arms T) t = Some a -> code_kind t = Some (a_kind a).
Proof.
  intros H. apply find_arm_in in H as [Hin <-]. apply (tab_arm code L T HT) in Hin. unfold check_arm in Hin.
  rewrite !andb_true_iff in Hin. apply okind_eqb_eq. apply Hin.
Qed.
Lemma find_arm_known t : In t (map f_code L) <-> exists a, find_arm (t_arms T) t = Some a.
Proof.
  split.
  - intros H. apply in_map_iff in H as (f & <- & Hf). apply In_nth_error in Hf as (j & Hj).
    destruct (check_slots_nth _ _ _ _ _ (tab_slots code L T HT)) as [_ Hn]. destruct (Hn j f Hj) as (s & _ & Hfact & _).
    destruct (sf_arm _ _ _ _ _ Hfact) as (a & Ha & _). eauto.
  - intros (a & H). apply find_arm_in in H as [Hin <-]. apply (tab_arm code L T HT) in Hin. unfold check_arm in Hin.
    rewrite !andb_true_iff in Hin. destruct Hin as [[_ H] _]. apply existsb_exists in H as (f & Hf & E). apply N.eqb_eq in E.
    rewrite <- E. apply in_map, Hf.
Qed.

(* soundness of the loop *)
Lemma loop_sound : forall fuel b p inc c fs c' fs',
  msg1_loop T m fuel b p inc c fs = Ok (c', fs') ->
  exists l, reads m b p l /\ StronglySorted N.le (inc :: map fst l) /\
    Forall (fun t => In t (map f_code L)) (map fst l) /\ book T m l c fs = Ok (c', fs').
Proof.
  induction fuel as [|fuel IH]; intros b p inc c fs c' fs' H; [discriminate|]. cbn [msg1_loop] in H.
  destruct (Nat.leb_spec (length b) p) as [Hp|Hp].
  - exists []. split; [constructor; exact Hp|]. split; [repeat constructor|]. split; [constructor|exact H].
  - apply bind_ok in H as (t & Ht & H). unfold at_ in Ht. destruct (nth_error b p) as [t'|] eqn:En; [|discriminate]. injection Ht as ->.
    destruct (N.ltb_spec t inc) as [|Hle]; [discriminate|].
    destruct (find_arm (t_arms T) t) as [a|] eqn:Ea; [|discriminate].
    apply bind_ok in H as (rest & Hrest & H). rewrite slice_from_ok in Hrest by lia. injection Hrest as <-.
    destruct (ie1_unmarshal (a_kind a) m (skipn p b)) as [i|e| |] eqn:Ei;
      [|apply bind_ok in H as (? & _ & H); discriminate|discriminate|discriminate].
    apply bind_ok in H as (n & Hn & H). apply bind_ok in H as (len & Hlen & H).
    destruct (IH _ _ _ _ _ _ _ H) as (l & Hr & Hs & Hk & Hb).
    exists ((t, i) :: l). split; [econstructor; try eassumption; apply find_arm_kind, Ea|].
    split; [|split].
    + cbn [map fst]. constructor; [exact Hs|]. inversion Hs as [|? ? _ Hall]; subst.
      constructor; [exact Hle|]. rewrite Forall_forall in Hall |- *. intros u Hu. specialize (Hall u Hu). lia.
    + cbn [map fst]. constructor; [|exact Hk]. apply find_arm_known. eauto.
    + cbn [book]. rewrite Ea, Hn. exact Hb.
Qed.

Lemma loop_complete : forall b p l, reads m b p l -> forall inc c fs r fuel,
  StronglySorted N.le (inc :: map fst l) -> Forall (fun t => In t (map f_code L)) (map fst l) ->
  book T m l c fs = Ok r -> (length l < fuel)%nat -> msg1_loop T m fuel b p inc c fs = Ok r.
Proof.
  induction 1 as [p Hp|p t k i n l Ht Hk Hi Hn Hr IH]; intros inc c fs r fuel Hs HF Hb Hfu;
    (destruct fuel as [|fuel]; [lia|]); cbn [msg1_loop].
  - destruct (Nat.leb_spec (length b) p); [|lia]. exact Hb.
  - assert (Hpl : (p < length b)%nat) by (apply nth_error_Some; congruence).
    destruct (Nat.leb_spec (length b) p); [lia|]. unfold at_. rewrite Ht. cbn [bind].
    cbn [map fst] in Hs, HF. inversion Hs as [|? ? Hss Hall]; subst. inversion Hall as [|? ? Hle _]; subst.
    inversion HF as [|? ? Hin HF']; subst.
    destruct (N.ltb_spec t inc); [lia|]. cbn [book] in Hb.
    destruct (find_arm (t_arms T) t) as [a|] eqn:Ea; [|discriminate].
    rewrite slice_from_ok by lia. cbn [bind].
    pose proof (find_arm_kind _ _ Ea) as Ek. rewrite Hk in Ek. injection Ek as ->. rewrite Hi.
    destruct (next_count m (c t)) as [x|e| |]; try discriminate Hb. cbn [bind] in Hb |- *. rewrite Hn. cbn [bind].
    apply IH; [exact Hss|exact HF'|exact Hb|cbn [length] in Hfu; lia].
Qed.

(* counting *)
Definition occn (t : N) (l : list (N * ie1)) : nat := length (occ t l).
Lemma occ_app t a b : occ t (a ++ b) = occ t a ++ occ t b.
Proof. unfold occ. rewrite filter_app, map_app. reflexivity. Qed.
Lemma occ_one t u i : occ t [(u, i)] = if u =? t then [i] else [].
Proof. unfold occ. cbn [filter fst]. destruct (u =? t); reflexivity. Qed.

Lemma target_big a n : (4 <= n)%nat -> arm_target a (optc n) = None.
Proof.
  intros H. destruct n as [|n]; [lia|]. cbn [optc]. destruct a; cbn [arm_target]; [reflexivity| |].
  - destruct (N.ltb_spec (N.of_nat (S n)) 2); [lia|reflexivity].
  - destruct (N.eqb_spec (N.of_nat (S n)) 1); [lia|]. destruct (N.eqb_spec (N.of_nat (S n)) 2); [lia|].
    destruct (N.eqb_spec (N.of_nat (S n)) 3); [lia|reflexivity].
Qed.
Lemma target_is t a n j : find_arm (t_arms T) t = Some a -> arm_target (a_slots a) (optc n) = Some j ->
  exists f, nth_error L j = Some f /\ f_code f = t /\ rank L t j = n.
Proof.
  intros Ha Hj. destruct (Nat.leb_spec 4 n) as [Hn|Hn]; [rewrite target_big in Hj by exact Hn; discriminate|].
  apply find_arm_in in Ha as [Hin E]. apply (tab_arm code L T HT) in Hin. unfold check_arm in Hin.
  rewrite !andb_true_iff in Hin. destruct Hin as [_ H]. rewrite forallb_forall in H.
  specialize (H n ltac:(apply in_seq; lia)). rewrite Hj in H. destruct (nth_error L j) as [f|]; [|discriminate].
  apply andb_prop in H as [H1 H2]. apply N.eqb_eq in H1. apply Nat.eqb_eq in H2. exists f.
  rewrite E in H1, H2. auto.
Qed.
Lemma target_of j f a : nth_error L j = Some f -> find_arm (t_arms T) (f_code f) = Some a ->
  arm_target (a_slots a) (optc (rank L (f_code f) j)) = Some j.
Proof.
  intros Hj Ha. destruct (check_slots_nth _ _ _ _ _ (tab_slots code L T HT)) as [_ Hn].
  destruct (Hn j f Hj) as (s & _ & Hfact & _). destruct (sf_arm _ _ _ _ _ Hfact) as (a' & Ha' & _ & Ht).
  cbn [Nat.add] in Ht. congruence.
Qed.

Lemma set_field_nth : forall fs j i k, nth_error (set_field fs j i) k =
  if (k =? j)%nat then (match nth_error fs k with Some _ => Some (Some i) | None => None end) else nth_error fs k.
Proof.
  induction fs as [|v fs IH]; intros [|j] i [|k]; cbn [set_field nth_error Nat.eqb]; try reflexivity.
  - destruct (k =? j)%nat; reflexivity.
  - apply IH.
Qed.
Lemma set_field_length : forall fs j i, length (set_field fs j i) = length fs.
Proof. induction fs as [|v fs IH]; intros [|j] i; cbn [set_field length]; try reflexivity. rewrite IH. reflexivity. Qed.

(* the state after the elements [l0]: counts and fields *)
Definition state_ok (l0 : list (N * ie1)) (c : counts1) (fs : list (option ie1)) : Prop :=
  (forall t, c t = optc (occn t l0)) /\ length fs = length L /\
  forall j f, nth_error L j = Some f ->
    nth_error fs j = match nth_error (occ (f_code f) l0) (rank L (f_code f) j) with
                     | Some i => Some (Some i)
                     | None => nth_error (map s_default (t_slots T)) j
                     end.

Lemma state_step l0 c fs t i a : state_ok l0 c fs -> find_arm (t_arms T) t = Some a ->
  state_ok (l0 ++ [(t, i)]) (put1 c t (N.of_nat (S (occn t l0))))
    (match arm_target (a_slots a) (c t) with Some s => set_field fs s i | None => fs end).
Proof.
  intros (Hc & Hl & Hf) Ha. split; [|split].
  - intros u. unfold put1, occn. rewrite occ_app, occ_one, app_length, N.eqb_sym.
    destruct (N.eqb_spec t u) as [<-|]; [|cbn [length]; rewrite Nat.add_0_r; apply Hc].
    cbn [length]. rewrite Nat.add_1_r. reflexivity.
  - destruct (arm_target _ _); rewrite ?set_field_length; exact Hl.
  - intros j f Hj. rewrite occ_app, occ_one. specialize (Hf j f Hj).
    assert (Hin : (j < length fs)%nat) by (rewrite Hl; apply nth_error_Some; congruence).
    rewrite Hc. destruct (N.eqb_spec t (f_code f)) as [Et|Et].
    + subst t. pose proof (target_of j f a Hj Ha) as Hto.
      destruct (arm_target (a_slots a) (optc (occn (f_code f) l0))) as [s|] eqn:Es.
      * destruct (target_is _ _ _ _ Ha Es) as (g & Hg & Eg & Er).
        rewrite set_field_nth. destruct (Nat.eqb_spec j s) as [->|Hne].
        -- destruct (nth_error fs s) eqn:Ens; [|apply nth_error_None in Ens; lia].
           rewrite Er. unfold occn. rewrite nth_error_app2, Nat.sub_diag by lia. reflexivity.
        -- rewrite Hf. destruct (Nat.ltb_spec (rank L (f_code f) j) (occn (f_code f) l0)) as [Hlt|Hge].
           ++ rewrite nth_error_app1 by exact Hlt. reflexivity.
           ++ assert (nth_error (occ (f_code f) l0) (rank L (f_code f) j) = None) as -> by (apply nth_error_None; exact Hge).
              destruct (Nat.eq_dec (rank L (f_code f) j) (occn (f_code f) l0)) as [E|E].
              ** exfalso. rewrite E in Hto. congruence.
              ** rewrite nth_error_app2 by exact Hge. fold (occn (f_code f) l0).
                 destruct (rank L (f_code f) j - occn (f_code f) l0)%nat as [|d] eqn:Ed; [lia|].
                 cbn [nth_error]. destruct d; reflexivity.
      * rewrite Hf. destruct (Nat.ltb_spec (rank L (f_code f) j) (occn (f_code f) l0)) as [Hlt|Hge].
        -- rewrite nth_error_app1 by exact Hlt. reflexivity.
        -- assert (nth_error (occ (f_code f) l0) (rank L (f_code f) j) = None) as -> by (apply nth_error_None; exact Hge).
           destruct (Nat.eq_dec (rank L (f_code f) j) (occn (f_code f) l0)) as [E|E].
           ++ exfalso. rewrite E in Hto. congruence.
           ++ rewrite nth_error_app2 by exact Hge. fold (occn (f_code f) l0).
              destruct (rank L (f_code f) j - occn (f_code f) l0)%nat as [|d] eqn:Ed; [lia|].
              cbn [nth_error]. destruct d; reflexivity.
    + rewrite app_nil_r, <- Hf.
      destruct (arm_target (a_slots a) (optc (occn t l0))) as [s|] eqn:Es; [|reflexivity].
      destruct (target_is _ _ _ _ Ha Es) as (g & Hg & Eg & Er). rewrite set_field_nth.
      destruct (Nat.eqb_spec j s) as [->|]; [|reflexivity]. congruence.
Qed.

Lemma next_count_spec n r : (n <= 255)%nat -> next_count m (optc n) = Ok r -> (m = Debug -> (n < 255)%nat) /\
  ((n < 255)%nat -> r = N.of_nat (S n)).
Proof.
  intros Hn H. split.
  - intros ->. destruct n as [|n]; [lia|]. cbn [optc next_count] in H. unfold add8, ov in H.
    destruct (N.ltb_spec (N.of_nat (S n) + 1) 256); [lia|discriminate H].
  - intros Hlt. rewrite next_count_ok in H by exact Hlt. congruence.
Qed.

(* with at most 255 elements of a type the bookkeeping succeeds and keeps the state *)
Lemma book_ok : forall l l0 c fs, state_ok l0 c fs ->
  Forall (fun t => In t (map f_code L)) (map fst l) ->
  (forall t, (occn t (l0 ++ l) <= 255)%nat) ->
  exists c' fs', book T m l c fs = Ok (c', fs') /\ state_ok (l0 ++ l) c' fs'.
Proof.
  induction l as [|[t i] l IH]; intros l0 c fs Hst HF Hn.
  - exists c, fs. rewrite app_nil_r. split; [reflexivity|exact Hst].
  - cbn [map fst] in HF. inversion HF as [|? ? Hin HF']; subst. apply find_arm_known in Hin as (a & Ha).
    cbn [book]. rewrite Ha. destruct Hst as (Hc & Hl & Hf).
    assert (Hlt : (occn t l0 < 255)%nat).
    { specialize (Hn t). unfold occn in *. change ((t, i) :: l) with ([(t, i)] ++ l) in Hn.
      rewrite !occ_app, occ_one, N.eqb_refl, !app_length in Hn. cbn [length] in Hn. lia. }
    rewrite (Hc t), next_count_ok by exact Hlt. cbn [bind].
    assert (Hst : state_ok l0 c fs) by (split; [exact Hc|split; assumption]).
    pose proof (state_step l0 c fs t i a Hst Ha) as Hst'. rewrite (Hc t) in Hst'.
    destruct (IH _ _ _ Hst' HF') as (c' & fs' & Hb & Hst'').
    { intros u. rewrite <- app_assoc. apply Hn. }
    exists c', fs'. rewrite <- app_assoc in Hst''. split; [exact Hb|exact Hst''].
Qed.

(* presence of counts at the end, whatever wraps around *)
Lemma book_counts : forall l c fs c' fs', book T m l c fs = Ok (c', fs') ->
  forall t, is_some (c' t) = true <-> (is_some (c t) = true \/ In t (map fst l)).
Proof.
  induction l as [|[u i] l IH]; intros c fs c' fs' H t; cbn [book] in H.
  - injection H as <- <-. cbn. intuition.
  - destruct (find_arm (t_arms T) u) as [a|]; [|discriminate]. apply bind_ok in H as (n & Hn & H).
    rewrite (IH _ _ _ _ H t). cbn [map fst In]. unfold put1. destruct (N.eqb_spec t u) as [->|Hne]; cbn [is_some]; intuition congruence.
Qed.

Lemma init_state : state_ok [] (fun _ => None) (map s_default (t_slots T)).
Proof.
  destruct (check_slots_nth _ _ _ _ _ (tab_slots code L T HT)) as [EL _].
  split; [reflexivity|]. split; [rewrite map_length; symmetry; exact EL|]. intros j f Hj.
  change (occ (f_code f) []) with (@nil ie1). destruct (rank L (f_code f) j); reflexivity.
Qed.

Lemma state_stored l c fs : state_ok l c fs -> stored L l fs.
Proof.
  intros (_ & Hl & Hf). split; [exact Hl|]. intros j f Hj. rewrite (Hf j f Hj).
  destruct (nth_error (occ _ l) _); [reflexivity|]. intros Hm.
  destruct (check_slots_nth _ _ _ _ _ (tab_slots code L T HT)) as [_ Hn]. destruct (Hn j f Hj) as (s & Hs & Hfact & _).
  rewrite (map_nth_error s_default _ _ Hs). rewrite (sf_mand _ _ _ _ _ Hfact) in Hm. destruct (s_default s); [discriminate|reflexivity].
Qed.

(* In debug mode an accepted packet has at most 255 elements of a type. *)
Lemma book_debug : m = Debug -> forall l l0 c fs r, (forall t, c t = optc (occn t l0)) -> (forall t, (occn t l0 <= 255)%nat) ->
  book T m l c fs = Ok r -> forall t, (occn t (l0 ++ l) <= 255)%nat.
Proof.
  intros Hm. induction l as [|[t i] l IH]; intros l0 c fs r Hc H0 H u.
  - rewrite app_nil_r. apply H0.
  - cbn [book] in H. destruct (find_arm (t_arms T) t) as [a|]; [|discriminate]. apply bind_ok in H as (n & Hn & H).
    rewrite Hc in Hn. destruct (next_count_spec _ _ (H0 t) Hn) as [A B]. specialize (A Hm). specialize (B A). subst n.
    change ((t, i) :: l) with ([(t, i)] ++ l). rewrite app_assoc. refine (IH (l0 ++ [(t, i)]) _ _ _ _ _ H u).
    + intros v. unfold put1, occn. rewrite occ_app, occ_one, app_length, N.eqb_sym.
      destruct (N.eqb_spec t v) as [<-|]; [|cbn [length]; rewrite Nat.add_0_r; apply Hc].
      cbn [length]. rewrite Nat.add_1_r. reflexivity.
    + intros v. unfold occn. rewrite occ_app, occ_one, app_length. specialize (H0 v). unfold occn in *.
      destruct (N.eqb_spec t v) as [<-|]; cbn [length]; lia.
Qed.

(* ------------------------------------------------------------------------- *)
Lemma msg1_accepted b x : msg1_unmarshal T m b = Ok x ->
  exists n l, chdr_unmarshal m b = Ok (m_header x) /\ c_msgtype (m_header x) = code /\
    (exists s, add16 (E := GTPV1Error) m (c_length (m_header x)) 8 = Ok s /\ (N.to_nat s <= length b)%nat) /\
    chdr_len m (m_header x) = Ok n /\ reads m b n l /\
    StronglySorted N.le (map fst l) /\ Forall (fun t => In t (map f_code L)) (map fst l) /\
    (forall f, In f L -> f_mandatory f = true -> In (f_code f) (map fst l)) /\
    (m = Debug -> forall t, (length (occ t l) <= 255)%nat) /\
    ((forall t, (length (occ t l) <= 255)%nat) -> stored L l (m_fields x)).
Proof.
  intros H. unfold msg1_unmarshal in H. apply bind_ok in H as (h & Hh & H).
  destruct (N.eqb_spec (c_msgtype h) (t_msgtype T)) as [E|]; [|discriminate]. cbn [negb] in H.
  apply bind_ok in H as (s & Hs & H). destruct (Nat.leb_spec (N.to_nat s) (length b)) as [Hle|]; [|discriminate].
  apply bind_ok in H as (n & Hn & H). apply bind_ok in H as ([c fs] & Hl & H). cbn [fst snd] in H.
  destruct (forallb _ _) eqn:Hr; [|discriminate]. injection H as <-. cbn [m_header m_fields].
  destruct (loop_sound _ _ _ _ _ _ _ _ Hl) as (l & Hrd & Hss & HF & Hb).
  exists n, l. split; [exact Hh|]. split; [rewrite E; apply (tab_code code L T HT)|]. split; [eauto|].
  split; [exact Hn|]. split; [exact Hrd|]. split; [inversion Hss; assumption|]. split; [exact HF|]. split; [|split].
  - intros f Hf Hm. rewrite forallb_forall in Hr. specialize (Hr _ (tab_mandatory code L T HT f Hf Hm)). cbv beta in Hr.
    apply (book_counts _ _ _ _ _ Hb) in Hr as [Hr|Hr]; [discriminate Hr|exact Hr].
  - intros Hm. refine (book_debug Hm l [] (fun _ => None) _ _ _ _ Hb); [intros t; reflexivity|intros t; cbn; lia].
  - intros Ho. destruct (book_ok l [] _ _ init_state HF Ho) as (c' & fs' & Hb' & Hst).
    rewrite Hb in Hb'. injection Hb' as <- <-. cbn [app] in Hst. eapply state_stored, Hst.
Qed.

Lemma msg1_accepts b h n l s : chdr_unmarshal m b = Ok h -> c_msgtype h = code ->
  add16 (E := GTPV1Error) m (c_length h) 8 = Ok s -> (N.to_nat s <= length b)%nat ->
  chdr_len m h = Ok n -> reads m b n l -> StronglySorted N.le (map fst l) ->
  Forall (fun t => In t (map f_code L)) (map fst l) ->
  (forall f, In f L -> f_mandatory f = true -> In (f_code f) (map fst l)) ->
  (forall t, (length (occ t l) <= 255)%nat) ->
  exists fs, msg1_unmarshal T m b = Ok (mkMsg1 h fs) /\ stored L l fs.
Proof.
  intros Hh E Hs Hle Hn Hrd Hss HF Hm Ho.
  destruct (book_ok l [] _ _ init_state HF Ho) as (c & fs & Hb & Hst). cbn [app] in Hst.
  exists fs. split; [|eapply state_stored, Hst]. unfold msg1_unmarshal. rewrite Hh. cbn [bind].
  rewrite E, (tab_code code L T HT), N.eqb_refl. cbn [negb]. rewrite Hs. cbn [bind].
  destruct (Nat.leb_spec (N.to_nat s) (length b)); [|lia]. rewrite Hn. cbn [bind].
  rewrite (loop_complete b n l Hrd 0 _ _ (c, fs) (S (length b))).
  - cbn [bind fst snd]. replace (forallb _ _) with true; [reflexivity|]. symmetry. apply forallb_forall. intros t Ht.
    apply (book_counts _ _ _ _ _ Hb). right. destruct (tab_required code L T HT t Ht) as (f & Hf & <- & Hmf). auto.
  - constructor; [exact Hss|]. apply Forall_forall. intros t _. lia.
  - exact HF.
  - exact Hb.
  - destruct (reads_len _ _ _ _ Hrd) as [Hx| ->]; [lia|cbn; lia].
Qed.
End Read.
