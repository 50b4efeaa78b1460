(* V1CMsgFacts.v - the message loop of GTPv1-C. *)
From Verif Require Import BaseFacts V1USpec V1UFacts V1CHdrFacts V1CIeFacts V1CWireSpec V1CWireFacts V1CMsgSpec.
From Coq Require Import Sorted.
Local Open Scope N_scope.

(* What the loop does with the n-th occurrence, as a table check that [vm_compute] settles. *)
Definition optc (n : nat) : option N := match n with 0%nat => None | _ => Some (N.of_nat n) end.
Definition kind_eqb (a b : kind1) : bool := if (ltac:(decide equality) : {a = b} + {a <> b}) then true else false.
Definition onat_eqb (a b : option nat) : bool :=
  match a, b with Some x, Some y => Nat.eqb x y | None, None => true | _, _ => false end.
Definition okind_eqb (a b : option kind1) : bool :=
  match a, b with Some x, Some y => kind_eqb x y | None, None => true | _, _ => false end.

Fixpoint check_slots (L0 : list field1) (arms : list arm1) (j : nat) (L : list field1) (S : list slot1) : bool :=
  match L, S with
  | [], [] => true
  | f :: L', s :: S' =>
      match find_arm arms (f_code f) with
      | Some a => okind_eqb (code_kind (f_code f)) (Some (a_kind a)) && kind_eqb (a_kind a) (s_kind s)
                  && onat_eqb (arm_target (a_slots a) (optc (rank L0 (f_code f) j))) (Some j)
      | None => false
      end
      && Bool.eqb (f_mandatory f) (is_some (s_default s))
      && (negb (f_code f =? 255) || match L' with [] => true | _ => false end)
      && check_slots L0 arms (Datatypes.S j) L' S'
  | _, _ => false
  end.
(* every target of an arm is a slot of that code and rank; every arm's type is one of L *)
Definition check_arm (L : list field1) (a : arm1) : bool :=
  okind_eqb (code_kind (a_type a)) (Some (a_kind a))
  && existsb (fun f => f_code f =? a_type a) L
  && forallb (fun n => match arm_target (a_slots a) (optc n) with
        | Some j => match nth_error L j with
                    | Some f => (f_code f =? a_type a) && (rank L (a_type a) j =? n)%nat
                    | None => false end
        | None => true end) (seq 0 5).
Definition check_table (code : N) (L : list field1) (T : table1) : bool :=
  (t_msgtype T =? code) && check_slots L (t_arms T) 0 L (t_slots T)
  && forallb (check_arm L) (t_arms T)
  && forallb (fun t => existsb (fun f => (f_code f =? t) && f_mandatory f) L) (t_required T)
  && forallb (fun f => negb (f_mandatory f) || existsb (N.eqb (f_code f)) (t_required T)) L
  && (List.length L <? 100)%nat.

Lemma tables_checked : forallb (fun e => check_table (fst (fst e)) (snd (fst e)) (snd e)) messages1 = true.
Proof. vm_compute. reflexivity. Qed.

Lemma kind_eqb_eq a b : kind_eqb a b = true -> a = b.
Proof. unfold kind_eqb. destruct (_ : {a = b} + {a <> b}); [auto|discriminate]. Qed.
Lemma okind_eqb_eq a b : okind_eqb a (Some b) = true -> a = Some b.
Proof. destruct a; cbn; [intros H; f_equal; apply kind_eqb_eq, H|discriminate]. Qed.
Lemma onat_eqb_eq a b : onat_eqb a (Some b) = true -> a = Some b.
Proof. destruct a; cbn; [intros H; f_equal; apply Nat.eqb_eq, H|discriminate]. Qed.

Record slot_fact (L0 : list field1) (arms : list arm1) (j : nat) (f : field1) (s : slot1) : Prop := {
  sf_arm : exists a, find_arm arms (f_code f) = Some a /\ code_kind (f_code f) = Some (a_kind a) /\
             arm_target (a_slots a) (optc (rank L0 (f_code f) j)) = Some j;
  sf_mand : f_mandatory f = is_some (s_default s) }.

Lemma check_slots_nth L0 arms : forall L S j, check_slots L0 arms j L S = true ->
  length L = length S /\
  forall i f, nth_error L i = Some f ->
    exists s, nth_error S i = Some s /\ slot_fact L0 arms (j + i) f s
              /\ (f_code f = 255 -> length L = Datatypes.S i).
Proof.
  induction L as [|f L IH]; intros [|s S] j H; try discriminate H.
  - split; [reflexivity|]. intros [|i] g; discriminate.
  - cbn [check_slots] in H. apply andb_prop in H as [H HR]. apply andb_prop in H as [H H3]. apply andb_prop in H as [H1 H2].
    destruct (IH _ _ HR) as [EL IHn]. split; [cbn [length]; lia|].
    intros [|i] g Hg; cbn [nth_error] in Hg |- *.
    + injection Hg as <-. exists s. split; [reflexivity|]. rewrite Nat.add_0_r. split.
      * split; [|apply Bool.eqb_prop, H2]. destruct (find_arm arms (f_code f)) as [a|]; [|discriminate].
        apply andb_prop in H1 as [H1 H1c]. apply andb_prop in H1 as [H1a H1b].
        exists a. split; [reflexivity|]. split; [apply okind_eqb_eq, H1a|apply onat_eqb_eq, H1c].
      * intros E. rewrite E in H3. destruct L; [reflexivity|discriminate H3].
    + destruct (IHn i g Hg) as (s' & Hs & Hf & Hl). exists s'. split; [exact Hs|]. split.
      * replace (j + Datatypes.S i)%nat with (Datatypes.S j + i)%nat by lia. exact Hf.
      * intros E. cbn [length]. rewrite (Hl E). reflexivity.
Qed.

(* ------------------------------------------------------------------------- *)
(* facts about single elements *)

Lemma wf_code_kind i : wf_ie1 i -> code_kind (ie1_t i) = Some (kind1_of i).
Proof.
  destruct i; cbn [wf_ie1 ie1_t kind1_of]; unfold wf_tv, wf_tlv; intros H;
    try (destruct H as [-> _]; reflexivity).
  destruct H as [[-> _]|[-> _]]; reflexivity.
Qed.
Lemma wf_head i : wf_ie1 i -> exists r, ie1_marshal i = ie1_t i :: r.
Proof. intros H. rewrite ie1_wire_ok by exact H. unfold ie1_wire. destruct (_ <? _); eauto. Qed.
Lemma wf_alone i : wf_ie1 i -> decodes_alone i -> ie1_t i = 255.
Proof. destruct i; cbn [decodes_alone]; try contradiction. intros [H _] _. exact H. Qed.
Lemma wf_misreported i : wf_ie1 i -> misreported i -> ie1_t i = 149.
Proof. destruct i; cbn [misreported]; try contradiction. intros [H _] _. exact H. Qed.
Lemma not_misreported i : wf_ie1 i -> ie1_t i <> 149 -> ~ misreported i.
Proof. intros A B C. apply B, (wf_misreported i A C). Qed.

Lemma set_field_mid pre d rest i : set_field (pre ++ d :: rest) (length pre) i = pre ++ Some i :: rest.
Proof. induction pre as [|x pre IH]; [reflexivity|]. cbn [app length set_field]. rewrite IH. reflexivity. Qed.

Definition cnt (t : N) (fs : list (option ie1)) : nat :=
  length (filter (fun v => match v with Some i => ie1_t i =? t | None => false end) fs).
Lemma cnt_app t a b : cnt t (a ++ b) = (cnt t a + cnt t b)%nat.
Proof. unfold cnt. rewrite filter_app, app_length. reflexivity. Qed.
Lemma cnt_le t a : (cnt t a <= length a)%nat.
Proof. unfold cnt. induction a as [|v a IH]; [cbn; lia|]. cbn [filter length]. destruct v as [i|]; [destruct (ie1_t i =? t)|]; cbn [length]; lia. Qed.

Lemma cnt_rank t : forall L fs, Forall2 field_ok L fs ->
  (forall i f, nth_error L i = Some f -> f_code f = t -> nth_error fs i <> Some None) ->
  cnt t fs = length (filter (fun f => f_code f =? t) L).
Proof.
  induction 1 as [|f v L fs Hf HF IH]; intros Hp; [reflexivity|].
  assert (IH' : cnt t fs = length (filter (fun f => f_code f =? t) L)) by (apply IH; intros i g Hi; apply (Hp (S i) g Hi)).
  unfold cnt in *. cbn [filter]. destruct v as [i|]; cbn [field_ok] in Hf.
  - destruct Hf as [E _]. rewrite <- E. destruct (ie1_t i =? t); cbn [length]; lia.
  - destruct (N.eqb_spec (f_code f) t) as [E|]; [|lia]. exfalso. exact (Hp 0%nat f eq_refl E eq_refl).
Qed.

Lemma next_count_ok m n : (n < 255)%nat -> next_count m (optc n) = Ok (N.of_nat (S n)).
Proof.
  intros H. destruct n as [|n]; [reflexivity|]. cbn [optc next_count]. rewrite add8_small by lia. f_equal. lia.
Qed.

(* ------------------------------------------------------------------------- *)
(* Decoding what was encoded *)

Lemma Forall2_length {A B} (R : A -> B -> Prop) la lb : Forall2 R la lb -> length la = length lb.
Proof. induction 1; cbn [length]; congruence. Qed.

Section Roundtrip.
Context (code : N) (L : list field1) (T : table1) (HT : check_table code L T = true) (m : mode).

Lemma tab_slots : check_slots L (t_arms T) 0 L (t_slots T) = true.
Proof. unfold check_table in HT. rewrite !andb_true_iff in HT. apply HT. Qed.
Lemma tab_code : t_msgtype T = code.
Proof. unfold check_table in HT. rewrite !andb_true_iff in HT. apply N.eqb_eq. apply HT. Qed.
Lemma tab_len : (length L < 100)%nat.
Proof. unfold check_table in HT. rewrite !andb_true_iff in HT. apply Nat.ltb_lt. apply HT. Qed.
Lemma tab_required t : In t (t_required T) -> exists f, In f L /\ f_code f = t /\ f_mandatory f = true.
Proof.
  unfold check_table in HT. rewrite !andb_true_iff in HT. destruct HT as [[[_ H] _] _]. rewrite forallb_forall in H.
  intros Ht. apply H in Ht. apply existsb_exists in Ht as (f & Hf & E). apply andb_prop in E as [E1 E2].
  exists f. apply N.eqb_eq in E1. auto.
Qed.
Lemma tab_mandatory f : In f L -> f_mandatory f = true -> In (f_code f) (t_required T).
Proof.
  unfold check_table in HT. rewrite !andb_true_iff in HT. destruct HT as [[_ H] _]. rewrite forallb_forall in H.
  intros Hf Hm. apply H in Hf. rewrite Hm in Hf. cbn in Hf. apply existsb_exists in Hf as (t & Ht & E).
  apply N.eqb_eq in E. subst t. exact Ht.
Qed.
Lemma tab_arm a : In a (t_arms T) -> check_arm L a = true.
Proof. unfold check_table in HT. rewrite !andb_true_iff in HT. destruct HT as [[[[_ H] _] _] _]. rewrite forallb_forall in H. apply H. Qed.

Lemma forall2_split {A B} (R : A -> B -> Prop) : forall la pre suf, Forall2 R la (pre ++ suf) ->
  exists l1 l2, la = l1 ++ l2 /\ Forall2 R l1 pre /\ Forall2 R l2 suf.
Proof. intros la pre suf H. apply Forall2_app_inv_r in H as (l1 & l2 & A1 & A2 & ->). eauto. Qed.

Lemma loop_fields fs : Forall2 field_ok L fs -> no_gap L fs ->
  (forall i, In (Some i) fs -> ie1_t i <> 149) ->
  forall suf pre b0 inc c fuel,
  fs = pre ++ suf ->
  (forall t, c t = optc (cnt t pre)) ->
  StronglySorted N.le (inc :: map ie1_t (flat_map (fun v => match v with Some i => [i] | None => [] end) suf)) ->
  (length (flat_map (fun v => match v with Some i => [i] | None => [] end) suf) < fuel)%nat ->
  exists c', msg1_loop T m fuel (b0 ++ concat (map (opt_bytes ie1_marshal) suf)) (length b0) inc c
               (pre ++ map s_default (skipn (length pre) (t_slots T))) = Ok (c', fs)
             /\ (forall t, c' t = optc (cnt t fs)).
Proof.
  intros HF HG H149. destruct (check_slots_nth _ _ _ _ _ tab_slots) as [EL Hnth].
  assert (Elen : length L = length fs) by (eapply Forall2_length; exact HF).
  induction suf as [|v suf IH]; intros pre b0 inc c fuel E Hc Hs Hfu.
  - destruct fuel as [|fuel]; [lia|]. cbn [map concat]. rewrite app_nil_r.
    rewrite app_nil_r in E. subst pre. cbn [msg1_loop]. destruct (Nat.leb_spec (length b0) (length b0)); [|lia].
    rewrite skipn_all2 by lia. cbn [map]. rewrite app_nil_r. eauto.
  - assert (Hj : (length pre < length L)%nat) by (rewrite Elen, E, app_length; cbn [length]; lia).
    destruct (nth_error L (length pre)) as [f|] eqn:Hf; [|apply nth_error_None in Hf; lia].
    destruct (Hnth _ _ Hf) as (s & Hs' & Hfact & Hlast). cbn [Nat.add] in Hfact.
    assert (Hv : field_ok f v).
    { rewrite E in HF. destruct (forall2_split _ _ _ _ HF) as (l1 & l2 & E2 & F1 & F2).
      inversion F2 as [|g ? l2' ? Hg _]; subst l2. pose proof (Forall2_length _ _ _ F1) as Hl1.
      rewrite E2, nth_error_app2 in Hf by lia. rewrite Hl1, Nat.sub_diag in Hf. cbn in Hf. injection Hf as <-. assumption. }
    assert (Hsk : skipn (length pre) (t_slots T) = s :: skipn (S (length pre)) (t_slots T)).
    { clear -Hs'. revert Hs'. generalize (length pre). induction (t_slots T) as [|x l IHl]; intros [|n] H; try discriminate H.
      - injection H as <-. reflexivity.
      - cbn [skipn]. rewrite IHl by exact H. destruct l; reflexivity. }
    destruct v as [i|]; cbn [field_ok] in Hv.
    + destruct Hv as [Et Hwf]. destruct (sf_arm _ _ _ _ _ Hfact) as (a & Ha & Hk & Htgt).
      destruct fuel as [|fuel]; [lia|].
      cbn [flat_map app map] in Hs. inversion Hs as [|? ? Hss Hle]; subst. inversion Hle as [|? ? Hle1 _]; subst.
      destruct (wf_head i Hwf) as (tl & Hm).
      cbn [map concat opt_bytes msg1_loop].
      assert (Hblen : (length b0 < length (b0 ++ ie1_marshal i ++ concat (map (opt_bytes ie1_marshal) suf)))%nat).
      { rewrite Hm, !app_length. cbn [length]. lia. }
      destruct (Nat.leb_spec (length (b0 ++ ie1_marshal i ++ concat (map (opt_bytes ie1_marshal) suf))) (length b0)); [lia|].
      rewrite slice_from_ok by lia. rewrite skipn_app_exact by reflexivity.
      unfold at_. rewrite nth_error_app2, Nat.sub_diag by lia.
      replace (nth_error (ie1_marshal i ++ concat (map (opt_bytes ie1_marshal) suf)) 0) with (Some (ie1_t i)) by (rewrite Hm; reflexivity).
      cbn [bind]. destruct (N.ltb_spec (ie1_t i) inc); [lia|].
      rewrite Et, Ha, <- Et.
      assert (Hki : a_kind a = kind1_of i).
      { rewrite <- Et, wf_code_kind in Hk by exact Hwf. congruence. }
      rewrite Hki, ie1_roundtrip; [|exact Hwf|].
      2:{ intros Hal. apply (wf_alone i Hwf) in Hal. rewrite Et in Hal. specialize (Hlast Hal).
          assert (length suf = 0%nat) by (rewrite Elen, app_length in Hlast; cbn [length] in Hlast; lia).
          destruct suf; [reflexivity|discriminate]. }
      rewrite Hc.
      assert (Hcl : (cnt (ie1_t i) pre < 255)%nat).
      { pose proof (cnt_le (ie1_t i) pre). pose proof tab_len. lia. }
      rewrite next_count_ok by exact Hcl. cbn [bind].
      rewrite ie1_len_ok; [|exact Hwf|apply not_misreported; [exact Hwf|apply H149, in_app_iff; right; left; reflexivity]].
      cbn [bind].
      assert (Er : cnt (ie1_t i) pre = rank L (f_code f) (length pre)).
      { unfold rank. rewrite Et. destruct (forall2_split _ _ _ _ HF) as (l1 & l2 & E2 & F1 & F2).
        pose proof (Forall2_length _ _ _ F1) as Hl1.
        rewrite (cnt_rank (f_code f) l1 pre F1).
        - rewrite E2, firstn_app_exact by lia. reflexivity.
        - intros k g Hg Eg. pose proof (nth_error_Some l1 k) as Hb. rewrite Hg in Hb.
          assert (Hk' : (k < length l1)%nat) by (apply Hb; discriminate).
          intros Hnone. apply (HG k (length pre) g f i).
          + lia.
          + rewrite E2, nth_error_app1 by exact Hk'. exact Hg.
          + exact Hf.
          + exact Eg.
          + rewrite nth_error_app2, Nat.sub_diag by lia. reflexivity.
          + rewrite nth_error_app1 by lia. exact Hnone. }
      rewrite Er, Htgt, Hsk. cbn [map]. rewrite set_field_mid.
      rewrite <- app_length, app_assoc.
      replace (pre ++ Some i :: map s_default (skipn (S (length pre)) (t_slots T)))
        with ((pre ++ [Some i]) ++ map s_default (skipn (length (pre ++ [Some i])) (t_slots T))).
      2:{ rewrite <- app_assoc, app_length. cbn [length app]. rewrite Nat.add_1_r. reflexivity. }
      apply IH.
      * rewrite <- app_assoc. reflexivity.
      * intros t. unfold put1. rewrite cnt_app. unfold cnt at 2. cbn [filter].
        rewrite N.eqb_sym. destruct (N.eqb_spec (ie1_t i) t) as [<-|Hne].
        -- cbn [length]. rewrite <- Er, Nat.add_1_r. reflexivity.
        -- cbn [length]. rewrite Nat.add_0_r. apply Hc.
      * exact Hss.
      * cbn [flat_map app length] in Hfu. lia.
    + assert (Hd : s_default s = None).
      { rewrite (sf_mand _ _ _ _ _ Hfact) in Hv. destruct (s_default s); [discriminate|reflexivity]. }
      cbn [flat_map app] in Hs. cbn [map concat opt_bytes app]. rewrite Hsk. cbn [map]. rewrite Hd.
      replace (pre ++ None :: map s_default (skipn (S (length pre)) (t_slots T)))
        with ((pre ++ [None]) ++ map s_default (skipn (length (pre ++ [None : option ie1])) (t_slots T))).
      2:{ rewrite <- app_assoc, app_length. cbn [length app]. rewrite Nat.add_1_r. reflexivity. }
      apply IH.
      * rewrite <- app_assoc. exact E.
      * intros t. rewrite cnt_app. unfold cnt at 2. cbn [filter length]. rewrite Nat.add_0_r. apply Hc.
      * exact Hs.
      * exact Hfu.
Qed.

Lemma cnt_present t fs : (exists i, In (Some i) fs /\ ie1_t i = t) -> is_some (optc (cnt t fs)) = true.
Proof.
  intros (i & Hi & E). unfold cnt. destruct (filter _ fs) as [|v l] eqn:Hfl.
  - exfalso. assert (Hin : In (Some i) (filter (fun v => match v with Some i => ie1_t i =? t | None => false end) fs)).
    { apply filter_In. split; [exact Hi|]. apply N.eqb_eq. exact E. }
    rewrite Hfl in Hin. contradiction.
  - reflexivity.
Qed.

Lemma msg1_roundtrip x : wf_msg1 code L x -> ascending x -> ~ has_code1 x 149 ->
  nlen (msg1_octets x) <= 65535 ->
  msg1_unmarshal T m (msg1_marshal x []) =
  Ok (mkMsg1 (chdr_with_length (m_header x) (nlen (msg1_octets x) - 8)) (m_fields x)).
Proof.
  intros (Hmt & Hh & HF & HG) Ha H149 Hlen. destruct x as [h fs]; cbn [m_header m_fields] in *.
  unfold msg1_marshal, msg1_octets in *; cbn [m_header m_fields app] in *.
  set (p := concat (map (opt_bytes ie1_marshal) fs)) in *.
  destruct (cframed m h p [] Hh) as (H1 & H2 & q & H3 & H4); [lia|].
  rewrite app_nil_r in H1. unfold msg1_unmarshal. rewrite H1. cbn [bind].
  cbn [c_msgtype chdr_with_length]. rewrite Hmt, tab_code, N.eqb_refl. cbn [negb].
  change (c_length (chdr_with_length h (nlen (chdr_marshal h ++ p) - 8))) with (nlen (chdr_marshal h ++ p) - 8).
  pose proof (chdr_marshal_ge8 h) as H8.
  assert (Hnl : 8 <= nlen (chdr_marshal h ++ p)) by (unfold nlen; rewrite app_length; lia).
  rewrite add16_small by lia. cbn [bind].
  assert (Hsl : length (set_length (chdr_marshal h ++ p)) = length (chdr_marshal h ++ p)).
  { rewrite H3, !app_length. lia. }
  destruct (Nat.leb_spec (N.to_nat (nlen (chdr_marshal h ++ p) - 8 + 8)) (length (set_length (chdr_marshal h ++ p)))) as [_|Hx];
    [|rewrite Hsl in Hx; unfold nlen in *; lia].
  rewrite H2. cbn [bind].
  rewrite H3, <- H4.
  assert (H149' : forall i, In (Some i) fs -> ie1_t i <> 149).
  { intros i Hi E. apply H149. unfold has_code1, present. cbn [m_fields]. apply in_map_iff. exists i. split; [exact E|].
    apply in_flat_map. exists (Some i). split; [exact Hi|left; reflexivity]. }
  assert (Hfuel : (length (flat_map (fun v => match v with Some i => [i] | None => [] end) fs) < S (length (q ++ p)))%nat).
  { rewrite app_length. unfold p. clear -HF. induction HF as [|f v L' fs' Hf HF IH]; [cbn; lia|].
    cbn [flat_map map concat]. rewrite !app_length. destruct v as [i|]; cbn [opt_bytes length]; [|lia].
    cbn [field_ok] in Hf. destruct Hf as [_ Hwf]. destruct (wf_head i Hwf) as (r & ->). cbn [length]. lia. }
  destruct (loop_fields fs HF HG H149' fs [] q 0 (fun _ => None) (S (length (q ++ p))) eq_refl) as (c' & HL & Hc').
  - intros t. reflexivity.
  - constructor; [exact Ha|]. apply Forall_forall. intros t _. lia.
  - exact Hfuel.
  - cbn [length app skipn] in HL. fold p in HL. rewrite HL. cbn [bind fst snd].
    replace (forallb (fun t => is_some (c' t)) (t_required T)) with true; [reflexivity|].
    symmetry. apply forallb_forall. intros t Ht. rewrite Hc'. apply cnt_present.
    destruct (tab_required t Ht) as (f & Hf & Ec & Em). clear -HF Hf Ec Em.
    induction HF as [|g v L' fs' Hg HF IH]; [contradiction|]. destruct Hf as [->|Hf].
    + destruct v as [i|]; cbn [field_ok] in Hg.
      * exists i. split; [left; reflexivity|]. destruct Hg. congruence.
      * congruence.
    + destruct (IH Hf) as (i & Hi & E). exists i. split; [right; exact Hi|exact E].
Qed.
End Roundtrip.
