(* V1CErr.v - errors of the GTPv1-C message decoders. *)
From Coq Require Import Sorted String.
From Verif Require Import BaseFacts V1USpec V1UFacts V1CHdrFacts V1CIeFacts V1CMsgSpec V1CMsgFacts V1CMsgRead V1CExact V1CErrSpec.
Local Open Scope N_scope.

Definition err_eqb (a b : GTPV1Error) : bool := if (ltac:(decide equality; apply N.eq_dec) : {a = b} + {a <> b}) then true else false.
Definition rerr_eqb (a b : res GTPV1Error) : bool :=
  match a, b with Ok x, Ok y => err_eqb x y | Panic, Panic => true | _, _ => false end.
Lemma rerr_eqb_eq a b : rerr_eqb a b = true -> a = b.
Proof. destruct a, b; cbn; try discriminate; try reflexivity. unfold err_eqb. destruct (_ : {_ = _} + {_ <> _}); [intros _; congruence|discriminate]. Qed.

(* every field against the arm of its code *)
Definition check_reports (code : N) (L : list field1) (T : table1) : bool :=
  forallb (fun j => match nth_error L j with
    | None => false
    | Some f => match find_arm (t_arms T) (f_code f) with
        | None => false
        | Some a => let n := rank L (f_code f) j in
            rerr_eqb (arm_error (a_err a) (if (n =? 0)%nat then 0 else f_code f) (optc n)) (report code f) &&
            match a_err a with ENsapi => f_code f =? 20 | _ => true end
        end end) (seq 0 (length L)).
Lemma reports_checked : forallb (fun e => check_reports (fst (fst e)) (snd (fst e)) (snd e)) messages1 = true.
Proof. vm_compute. reflexivity. Qed.

(* the last field of each code, for the elements after those that have a field *)
Definition check_last (code : N) (L : list field1) (T : table1) : bool :=
  forallb (fun j => match nth_error L j with
    | None => false
    | Some f => if existsb (fun j' => match nth_error L j' with Some f' => f_code f' =? f_code f | None => false end) (seq (S j) (length L - S j)) then true
        else match find_arm (t_arms T) (f_code f) with
        | None => false
        | Some a => match a_err a with
            | EGsn => (3 <=? rank L (f_code f) j)%nat && rerr_eqb (report code f) (Ok MessageOptionalIEIncorrect)
            | e => rerr_eqb (arm_error e (f_code f) (Some 1)) (report code f)
            end
        end end) (seq 0 (length L)).
Lemma last_checked : forallb (fun e => check_last (fst (fst e)) (snd (fst e)) (snd e)) messages1 = true.
Proof. vm_compute. reflexivity. Qed.

Section Err.
Context (code : N) (L : list field1) (T : table1) (HI : In (code, L, T) messages1) (m : mode).
Let HT : check_table code L T = true := messages1_checked _ _ _ HI.

Lemma report_arm j f a : nth_error L j = Some f -> find_arm (t_arms T) (f_code f) = Some a ->
  arm_error (a_err a) (if (rank L (f_code f) j =? 0)%nat then 0 else f_code f) (optc (rank L (f_code f) j)) = report code f /\
  (a_err a = ENsapi -> f_code f = 20).
Proof.
  intros Hj Ha. pose proof (proj1 (forallb_forall _ _) reports_checked _ HI) as H. cbn [fst snd] in H. unfold check_reports in H.
  assert (Hlt : (j < length L)%nat) by (apply nth_error_Some; congruence).
  pose proof (proj1 (forallb_forall _ _) H j ltac:(apply in_seq; lia)) as Hc. cbv beta in Hc. rewrite Hj, Ha in Hc.
  apply andb_prop in Hc as [H1 H2]. split; [apply rerr_eqb_eq, H1|]. intros E. rewrite E in H2. apply N.eqb_eq, H2.
Qed.

Lemma to_len b p l q : reads_to m b p l q -> (length l + p <= q)%nat.
Proof. induction 1; cbn [length]; lia. Qed.

Lemma last_cons (l : list N) : forall t d, last (t :: l) d = last l t.
Proof. induction l as [|x l IH]; intros t d; [reflexivity|]. change (last (t :: x :: l) d) with (last (x :: l) d). rewrite IH. symmetry. apply IH. Qed.
Lemma loop_to b p l q : reads_to m b p l q -> (q < length b)%nat -> forall inc c fs c' fs' fuel,
  StronglySorted N.le (inc :: map fst l) -> book T m l c fs = Ok (c', fs') ->
  msg1_loop T m (length l + fuel) b p inc c fs = msg1_loop T m fuel b q (last (map fst l) inc) c' fs'.
Proof.
  induction 1 as [p|p t k i n l q Ht Hk Hi Hn Hn0 Hr IH]; intros Hq inc c fs c' fs' fuel Hs Hb.
  - cbn [book] in Hb. apply Ok_inj in Hb. injection Hb as -> ->. reflexivity.
  - pose proof (to_len _ _ _ _ Hr) as Hpl. cbn [length Nat.add msg1_loop].
    destruct (Nat.leb_spec (length b) p); [lia|]. unfold at_. rewrite Ht. cbn [bind].
    cbn [map fst] in Hs. inversion Hs as [|? ? Hss Hall]; subst. inversion Hall as [|? ? Hle _]; subst.
    destruct (N.ltb_spec t inc); [lia|]. cbn [book] in Hb.
    destruct (find_arm (t_arms T) t) as [a|] eqn:Ea; [|discriminate].
    rewrite slice_from_ok by lia. cbn [bind].
    pose proof (find_arm_kind _ _ _ HT _ _ Ea) as Ek. rewrite Hk in Ek. injection Ek as ->. rewrite Hi.
    destruct (next_count m (c t)) as [x|e| |]; try discriminate Hb. cbn [bind] in Hb |- *. rewrite Hn. cbn [bind].
    rewrite (IH Hq t _ _ c' fs' fuel Hss Hb). cbn [map fst]. rewrite last_cons. reflexivity.
Qed.

(* before the element at [q] *)
Lemma unmarshal_to b h p l q s :
  chdr_unmarshal m b = Ok h -> c_msgtype h = code -> c_length h <= 65527 -> 8 + c_length h <= nlen b ->
  chdr_len m h = Ok p -> reads_to m b p l q -> nth_error b q = Some s -> StronglySorted N.le (map fst l) ->
  Forall (fun t => In t (map f_code L)) (map fst l) -> (forall t, (length (occ t l) <= 255)%nat) ->
  exists fuel c fs, (forall t, c t = optc (length (occ t l))) /\
  msg1_unmarshal T m b = (let? r := msg1_loop T m (S fuel) b q (last (map fst l) 0) c fs in
      if forallb (fun t => is_some (fst r t)) (t_required T) then Ok (mkMsg1 h (snd r)) else Err MessageMandatoryIEMissing).
Proof.
  intros Hh E Hl Hb Hp Hr Hq Hs HF Ho.
  assert (Hql : (q < length b)%nat) by (apply nth_error_Some; congruence).
  destruct (book_ok code L T HT m l [] _ _ (init_state code L T HT) HF Ho) as (c & fs & Hbk & Hst). cbn [app] in Hst.
  pose proof (to_len _ _ _ _ Hr) as Hll.
  exists (length b - length l)%nat, c, fs. split; [apply Hst|].
  unfold msg1_unmarshal. rewrite Hh. cbn [bind]. rewrite E, (tab_code code L T HT), N.eqb_refl. cbn [negb].
  rewrite add16_small by lia. cbn [bind]. unfold nlen in Hb.
  destruct (Nat.leb_spec (N.to_nat (c_length h + 8)) (length b)); [|lia]. rewrite Hp. cbn [bind].
  replace (S (length b)) with (length l + S (length b - length l))%nat by lia.
  rewrite (loop_to b p l q Hr Hql 0 _ _ c fs (S (length b - length l))); [reflexivity| |exact Hbk].
  constructor; [exact Hs|]. apply Forall_forall. intros t _. lia.
Qed.

Lemma last_in (l : list N) d : l <> [] -> In (last l d) l.
Proof. induction l as [|x [|y l] IH]; [congruence|left; reflexivity|]. intros _. right. apply IH. discriminate. Qed.
Lemma last_max (l : list N) d t : StronglySorted N.le l -> In t l -> t <= last l d.
Proof.
  induction 1 as [|x l Hs IH Hall]; intros Hi; [contradiction|]. destruct l as [|y l].
  - destruct Hi as [->|[]]. cbn. lia.
  - change (last (x :: y :: l) d) with (last (y :: l) d). destruct Hi as [->|Hi].
    + rewrite Forall_forall in Hall. apply Hall. apply last_in. discriminate.
    + apply IH, Hi.
Qed.
Lemma occ_in t l : In t (map fst l) <-> (0 < length (occ t l))%nat.
Proof.
  unfold occ. rewrite map_length. induction l as [|[u i] l IH]; cbn [map fst In filter length]; [lia|].
  destruct (N.eqb_spec u t) as [->|Hn]; cbn [length]; [split; [lia|auto]|]. rewrite <- IH. intuition congruence.
Qed.

Lemma refused b h p l q t k e j f :
  chdr_unmarshal m b = Ok h -> c_msgtype h = code -> c_length h <= 65527 -> 8 + c_length h <= nlen b ->
  chdr_len m h = Ok p -> reads_to m b p l q -> nth_error b q = Some t ->
  StronglySorted N.le (map fst l) -> (forall u, In u (map fst l) -> u <= t) ->
  Forall (fun t => In t (map f_code L)) (map fst l) -> (forall u, (length (occ u l) <= 255)%nat) ->
  code_kind t = Some k -> ie1_unmarshal k m (skipn q b) = Err e ->
  nth_error L j = Some f -> f_code f = t -> rank L t j = length (occ t l) ->
  msg1_unmarshal T m b = (let? e := report code f in Err e).
Proof.
  intros Hh E Hl Hb Hp Hr Hq Hs Hle HF Ho Hk He Hj Hc Hrk.
  destruct (unmarshal_to b h p l q t Hh E Hl Hb Hp Hr Hq Hs HF Ho) as (fuel & c & fs & Hcn & ->).
  assert (Hql : (q < length b)%nat) by (apply nth_error_Some; congruence).
  cbn [msg1_loop]. destruct (Nat.leb_spec (length b) q); [lia|]. unfold at_. rewrite Hq. cbn [bind].
  assert (Hlast : last (map fst l) 0 <= t).
  { destruct (map fst l) as [|x r] eqn:El; [cbn; lia|]. apply Hle. apply last_in. discriminate. }
  destruct (N.ltb_spec t (last (map fst l) 0)); [lia|].
  destruct (proj1 (find_arm_known code L T HT t)) as (a & Ha); [rewrite <- Hc; apply in_map; eapply nth_error_In, Hj|].
  rewrite Ha. rewrite slice_from_ok by lia. cbn [bind].
  pose proof (find_arm_kind _ _ _ HT _ _ Ha) as Ek. rewrite Hk in Ek. injection Ek as ->. rewrite He.
  rewrite <- Hc in Ha. destruct (report_arm j f a Hj Ha) as [HR HN]. rewrite Hc in HR, HN. rewrite <- HR, Hcn, <- Hrk.
  assert (HE : arm_error (a_err a) (last (map fst l) 0) (optc (rank L t j)) = arm_error (a_err a) (if (rank L t j =? 0)%nat then 0 else t) (optc (rank L t j))).
  { destruct (a_err a) eqn:Ea; try reflexivity. specialize (HN eq_refl). subst t. cbn [arm_error]. change NSAPI with 20.
    destruct (Nat.eqb_spec (rank L (f_code f) j) 0) as [E0|E0].
    - destruct (N.eqb_spec (last (map fst l) 0) 20) as [E2|]; [|reflexivity]. exfalso.
      assert (Hin : In 20 (map fst l)). { rewrite <- E2. apply last_in. intros E3. rewrite E3 in E2. discriminate. }
      apply occ_in in Hin. rewrite <- HN in Hin. lia.
    - rewrite HN, N.eqb_refl. destruct (N.eqb_spec (last (map fst l) 0) 20) as [|E2]; [reflexivity|]. exfalso. apply E2.
      assert (Hin : In (f_code f) (map fst l)) by (apply occ_in; lia).
      pose proof (last_max _ 0 _ Hs Hin). lia. }
  rewrite HE. destruct (arm_error _ _ _); reflexivity.
Qed.

Lemma surplus b h p l q t k e j f :
  chdr_unmarshal m b = Ok h -> c_msgtype h = code -> c_length h <= 65527 -> 8 + c_length h <= nlen b ->
  chdr_len m h = Ok p -> reads_to m b p l q -> nth_error b q = Some t ->
  StronglySorted N.le (map fst l) -> (forall u, In u (map fst l) -> u <= t) ->
  Forall (fun t => In t (map f_code L)) (map fst l) -> (forall u, (length (occ u l) <= 255)%nat) ->
  code_kind t = Some k -> ie1_unmarshal k m (skipn q b) = Err e ->
  nth_error L j = Some f -> f_code f = t -> (rank L t j < length (occ t l))%nat ->
  (forall j' f', nth_error L j' = Some f' -> f_code f' = t -> (j' <= j)%nat) ->
  msg1_unmarshal T m b = (let? e := report code f in Err e).
Proof.
  intros Hh E Hl Hb Hp Hr Hq Hs Hle HF Ho Hk He Hj Hc Hrk Hlastf.
  destruct (unmarshal_to b h p l q t Hh E Hl Hb Hp Hr Hq Hs HF Ho) as (fuel & c & fs & Hcn & ->).
  assert (Hql : (q < length b)%nat) by (apply nth_error_Some; congruence).
  cbn [msg1_loop]. destruct (Nat.leb_spec (length b) q); [lia|]. unfold at_. rewrite Hq. cbn [bind].
  assert (Hlast : last (map fst l) 0 <= t).
  { destruct (map fst l) as [|x r] eqn:El; [cbn; lia|]. apply Hle. apply last_in. discriminate. }
  assert (Hin : In t (map fst l)) by (apply occ_in; lia).
  pose proof (last_max _ 0 _ Hs Hin) as Hmx. assert (El : last (map fst l) 0 = t) by lia. rewrite El, N.ltb_irrefl.
  destruct (proj1 (find_arm_known code L T HT t)) as (a & Ha); [rewrite <- Hc; apply in_map; eapply nth_error_In, Hj|].
  rewrite Ha. rewrite slice_from_ok by lia. cbn [bind].
  pose proof (find_arm_kind _ _ _ HT _ _ Ha) as Ek. rewrite Hk in Ek. injection Ek as ->. rewrite He, Hcn.
  assert (HE : arm_error (a_err a) t (optc (length (occ t l))) = report code f).
  { pose proof (proj1 (forallb_forall _ _) last_checked _ HI) as H1. cbn [fst snd] in H1. unfold check_last in H1.
    assert (Hlt : (j < length L)%nat) by (apply nth_error_Some; congruence).
    pose proof (proj1 (forallb_forall _ _) H1 j ltac:(apply in_seq; lia)) as H2. cbv beta in H2. rewrite Hj in H2.
    destruct (existsb _ _) eqn:Ex.
    - exfalso. apply existsb_exists in Ex as (j' & Hj' & Ex). apply in_seq in Hj'.
      destruct (nth_error L j') as [f'|] eqn:Ef; [|discriminate]. apply N.eqb_eq in Ex.
      specialize (Hlastf _ _ Ef ltac:(congruence)). lia.
    - rewrite Hc, Ha in H2. destruct (a_err a) eqn:Ea; try (apply rerr_eqb_eq in H2; exact H2).
      apply andb_prop in H2 as [H2 H3]. apply rerr_eqb_eq in H3. apply Nat.leb_le in H2. rewrite H3.
      destruct (length (occ t l)) as [|n] eqn:En; [lia|]. cbn [optc arm_error].
      destruct (N.ltb_spec (N.of_nat (S n)) 3); [lia|reflexivity]. }
  rewrite HE. destruct (report code f); reflexivity.
Qed.

Lemma last_report j f : nth_error L j = Some f ->
  (forall j' f', nth_error L j' = Some f' -> f_code f' = f_code f -> (j' <= j)%nat) -> exists w, report code f = Ok w.
Proof.
  intros Hj Hlastf. pose proof (proj1 (forallb_forall _ _) last_checked _ HI) as H1. cbn [fst snd] in H1. unfold check_last in H1.
  assert (Hlt : (j < length L)%nat) by (apply nth_error_Some; congruence).
  pose proof (proj1 (forallb_forall _ _) H1 j ltac:(apply in_seq; lia)) as H2. cbv beta in H2. rewrite Hj in H2.
  destruct (existsb _ _) eqn:Ex.
  - exfalso. apply existsb_exists in Ex as (j' & Hj' & Ex). apply in_seq in Hj'.
    destruct (nth_error L j') as [f'|] eqn:Ef; [|discriminate]. apply N.eqb_eq in Ex. specialize (Hlastf _ _ Ef Ex). lia.
  - destruct (find_arm _ _) as [a|]; [|discriminate].
    destruct (a_err a) eqn:Ea; try (apply rerr_eqb_eq in H2; cbn [arm_error] in H2).
    + rewrite <- H2. eauto.
    + rewrite <- H2. eauto.
    + destruct (_ =? _) in H2; rewrite <- H2; eauto.
    + apply andb_prop in H2 as [_ H3]. apply rerr_eqb_eq in H3. eauto.
Qed.

Lemma out_of_order b h p l q t :
  chdr_unmarshal m b = Ok h -> c_msgtype h = code -> c_length h <= 65527 -> 8 + c_length h <= nlen b ->
  chdr_len m h = Ok p -> reads_to m b p l q -> nth_error b q = Some t ->
  StronglySorted N.le (map fst l) ->
  Forall (fun t => In t (map f_code L)) (map fst l) -> (forall u, (length (occ u l) <= 255)%nat) ->
  ((exists u, In u (map fst l) /\ t < u) \/ ~ In t (map f_code L)) ->
  msg1_unmarshal T m b = Err MessageInvalidMessageFormat.
Proof.
  intros Hh E Hl Hb Hp Hr Hq Hs HF Ho HX.
  destruct (unmarshal_to b h p l q t Hh E Hl Hb Hp Hr Hq Hs HF Ho) as (fuel & c & fs & Hcn & ->).
  assert (Hql : (q < length b)%nat) by (apply nth_error_Some; congruence).
  cbn [msg1_loop]. destruct (Nat.leb_spec (length b) q); [lia|]. unfold at_. rewrite Hq. cbn [bind].
  destruct (N.ltb_spec t (last (map fst l) 0)) as [|Hge]; [reflexivity|].
  destruct HX as [(u & Hu & Hlt)|Hn]; [pose proof (last_max _ 0 _ Hs Hu); lia|].
  destruct (find_arm (t_arms T) t) as [a|] eqn:Ha; [|reflexivity]. exfalso. apply Hn.
  apply (find_arm_known code L T HT). eauto.
Qed.
End Err.
