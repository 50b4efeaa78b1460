(* V1CrashMsg.v - when decoding a GTPv1-C message panics. *)
From Coq Require Import Sorting.Sorted.
From Verif Require Import Base BaseFacts LabelsFacts V1U V1CHdr V1CIe V1CKind V1CMsg V1CTables V1CSpec V1CSafeSpec V1CMsgSpec V1CMsgFacts V1CMsgRead V1CExact V1CMsgSafety V1CHdrSafety V1CIeSafety V1CrashSpec V1Crash V1CrashIe.
Local Open Scope N_scope.

Lemma bytes_skipn n b : bytes b -> bytes (skipn n b).
Proof. intros H. apply Forall_forall. intros x Hx. rewrite <- (firstn_skipn n b) in H. apply Forall_app in H as [_ H]. rewrite Forall_forall in H. auto. Qed.
Lemma skipn_nth (b : list N) q t : nth_error b q = Some t -> exists s, skipn q b = t :: s.
Proof. revert q. induction b as [|x b IH]; intros [|q] H; cbn in *; try discriminate; [injection H as ->; eauto|auto]. Qed.

(* the error handling that looks up a count belongs to one arm of one message *)
Definition gsn_arm (e : N * list field1 * table1) : bool :=
  let '(code, L, T) := e in
  forallb (fun a => Bool.eqb (match a_err a with EGsn => true | _ => false end) ((code =? 18) && (a_type a =? 133))) (t_arms T).
Lemma gsn_arms : forallb gsn_arm messages1 = true.
Proof. vm_compute. reflexivity. Qed.

Section Msg.
Context (code : N) (L : list field1) (T : table1) (HI : In (code, L, T) messages1) (m : mode).
Local Notation HT := (messages1_checked _ _ _ HI).

Lemma gsn_only a t : find_arm (t_arms T) t = Some a -> (a_err a = EGsn <-> code = 18 /\ t = 133).
Proof.
  intros H. apply find_arm_in in H as [H <-]. pose proof (proj1 (forallb_forall _ _) gsn_arms _ HI) as G. cbn [gsn_arm] in G.
  pose proof (proj1 (forallb_forall _ _) G a H) as E. cbv beta in E. apply Bool.eqb_prop in E.
  destruct (N.eqb_spec code 18), (N.eqb_spec (a_type a) 133), (a_err a); cbn [andb] in E; try discriminate; intuition (try discriminate; try contradiction).
Qed.

(* the counts after reading the element types [l] *)
Definition counted (l : list N) (c : counts1) : Prop :=
  forall t, match c t with None => ~ In t l | Some v => In t l /\ v < 256 /\ (m = Debug -> N.to_nat v = count_occ N.eq_dec l t) end.
Lemma counted_next l c t n : counted l c -> next_count m (c t) = Ok n -> counted (l ++ [t]) (put1 c t n).
Proof.
  intros H Hn u. unfold put1. specialize (H u). rewrite (N.eqb_sym u t) || idtac. destruct (N.eqb_spec t u) as [->|E].
  - unfold next_count in Hn. destruct (c u) as [v|].
    + destruct H as (H1 & H2 & H3). unfold add8, ov in Hn. split; [apply in_or_app; auto|]. rewrite count_occ_app. cbn [count_occ]. destruct (N.eq_dec u u); [|contradiction].
      destruct (N.ltb_spec (v + 1) 256).
      * injection Hn as <-. split; [assumption|]. intros D. specialize (H3 D). lia.
      * destruct m; [discriminate|]. injection Hn as <-. split; [|discriminate]. apply N.mod_lt. lia.
    + injection Hn as <-. split; [apply in_or_app; right; left; reflexivity|]. split; [lia|]. intros _. rewrite count_occ_app. cbn [count_occ]. destruct (N.eq_dec u u); [|contradiction].
      apply (count_occ_not_In N.eq_dec) in H. lia.
  - destruct (c u) as [v|].
    + destruct H as (H1 & H2 & H3). split; [apply in_or_app; auto|]. split; [assumption|]. intros D. rewrite count_occ_app. cbn [count_occ]. destruct (N.eq_dec t u); [contradiction|]. specialize (H3 D). lia.
    + intros [H1|[H1|[]]] % in_app_or; auto.
Qed.
Lemma next_panic l c t : counted l c -> (next_count m (c t) = Panic <-> m = Debug /\ count_occ N.eq_dec l t = 255%nat).
Proof.
  intros H. specialize (H t). unfold next_count. destruct (c t) as [v|].
  - destruct H as (H1 & H2 & H3). unfold add8, ov. destruct (N.ltb_spec (v + 1) 256).
    + split; [discriminate|]. intros [D E]. specialize (H3 D). lia.
    + destruct m.
      * split; [|reflexivity]. intros _. split; [reflexivity|]. specialize (H3 eq_refl). lia.
      * split; [discriminate|]. intros [D _]. discriminate.
  - split; [discriminate|]. intros [D E]. apply (count_occ_not_In N.eq_dec) in H. lia.
Qed.
Lemma next_cases l c t : counted l c -> next_count m (c t) = Panic \/ exists n, next_count m (c t) = Ok n.
Proof.
  intros H. unfold next_count. destruct (c t) as [v|]; [|eauto]. unfold add8, ov. destruct (_ <? _); [eauto|]. destruct m; eauto.
Qed.

(* the crash seen from position [p], with the element types [l0] read and [inc] the last of them *)
Definition crash_here (b : list N) (l0 : list N) (q : nat) (t : N) : Prop :=
  element_crashes m (skipn q b) \/
  (m = Debug /\ count_occ N.eq_dec l0 t = 255%nat /\ exists k i, code_kind t = Some k /\ ie1_unmarshal k m (skipn q b) = Ok i) \/
  (code = 18 /\ t = 133 /\ ~ In 133 l0 /\ exists e, CGsn_unmarshal m (skipn q b) = Err e).
Definition crash_from (b : list N) (inc : N) (l0 : list N) (p : nat) : Prop :=
  exists l q t, read_up_to m b p l q /\ nth_error b q = Some t /\ StronglySorted N.le (inc :: l ++ [t]) /\
    Forall (fun u => In u (map f_code L)) (l ++ [t]) /\ crash_here b (l0 ++ l) q t.

Lemma gsn_err s : (exists e, ie1_unmarshal K1_Gsn m s = Err e) <-> exists e, CGsn_unmarshal m s = Err e.
Proof. cbn [ie1_unmarshal]. destruct (CGsn_unmarshal m s); cbn [bind]; split; intros [e0 E0]; try discriminate; eauto. Qed.

Lemma loop_crash : forall fuel b p inc l0 c fs, bytes b -> counted l0 c -> msg1_loop T m fuel b p inc c fs = Panic -> crash_from b inc l0 p.
Proof.
  induction fuel as [|fuel IH]; intros b p inc l0 c fs B Hc H; [discriminate|]. cbn [msg1_loop] in H.
  destruct (Nat.leb_spec (length b) p) as [Hp|Hp]; [discriminate|].
  destruct (nth_error b p) as [t|] eqn:En; [|apply nth_error_None in En; lia].
  unfold at_ in H. rewrite En in H. cbn [bind] in H.
  destruct (N.ltb_spec t inc) as [|Hle]; [discriminate|].
  destruct (find_arm (t_arms T) t) as [a|] eqn:Ea; [|discriminate].
  rewrite slice_from_ok in H by lia. cbn [bind] in H.
  pose proof (find_arm_kind _ _ _ HT _ _ Ea) as Ek.
  assert (Hin : In t (map f_code L)) by (apply (find_arm_known code L T HT); eauto).
  assert (Here : crash_here b l0 p t -> crash_from b inc l0 p).
  { intros HC. exists [], p, t. split; [constructor|]. split; [exact En|]. cbn [app]. split; [constructor; [repeat constructor|constructor; [exact Hle|constructor]]|].
    split; [constructor; [exact Hin|constructor]|]. rewrite app_nil_r. exact HC. }
  destruct (skipn_nth _ _ _ En) as [s Es].
  assert (Bs : bytes (t :: s)) by (rewrite <- Es; apply bytes_skipn, B).
  pose proof (element_panic m t (a_kind a) s Bs Ek) as EP. rewrite <- Es in EP.
  destruct (ie1_unmarshal (a_kind a) m (skipn p b)) as [i|e| |] eqn:Ei; [| | |discriminate].
  - destruct (next_cases l0 c t Hc) as [Hn|[n Hn]]; rewrite Hn in H; cbn [bind] in H.
    + apply Here. right. left. apply (next_panic _ _ _ Hc) in Hn as [D E]. split; [exact D|]. split; [exact E|]. exists (a_kind a), i. auto.
    + apply bind_panic in H as [H|(len & Hlen & H)].
      * apply Here. left. apply EP. right. exists i. auto.
      * destruct (IH _ _ _ (l0 ++ [t]) _ _ B (counted_next _ _ _ _ Hc Hn) H) as (l & q & u & R & Hq & Hs & HF & HC).
        exists (t :: l), q, u. split; [econstructor; eassumption|]. split; [exact Hq|]. split.
        { cbn [app]. constructor; [exact Hs|]. inversion Hs as [|? ? _ Hall]; subst. constructor; [exact Hle|].
          rewrite Forall_forall in Hall |- *. intros x Hx. specialize (Hall x Hx). lia. }
        split; [constructor; assumption|]. rewrite <- app_assoc in HC. exact HC.
  - apply bind_panic in H as [H|(? & _ & H)]; [|discriminate]. destruct (a_err a) eqn:Er; cbn [arm_error] in H; try discriminate.
    { destruct (_ =? _); discriminate. }
    destruct (proj1 (gsn_only _ _ Ea) Er) as [H18 ->]. apply Here. right. right. split; [exact H18|]. split; [reflexivity|].
    pose proof (Hc 133) as Hx. destruct (c 133); [destruct (_ <? _); discriminate|]. split; [exact Hx|]. apply gsn_err. injection Ek as Ek. rewrite Ek. eauto.
  - apply Here. left. apply EP. left. exact Ei.
Qed.

(* an element that takes no room is read again and again *)
Lemma stuck b p t k i : nth_error b p = Some t -> code_kind t = Some k -> ie1_unmarshal k m (skipn p b) = Ok i -> ie1_len m i = Ok 0%nat ->
  forall l q, read_up_to m b p l q -> q = p.
Proof.
  intros H1 H2 H3 H4 l q R. induction R as [|p t' k' i' n l q Ht Hk Hi Hn R IH]; [reflexivity|].
  rewrite H1 in Ht. injection Ht as <-. rewrite H2 in Hk. injection Hk as <-. rewrite H3 in Hi. apply Ok_inj in Hi. subst i'. rewrite H4 in Hn. injection Hn as <-.
  rewrite Nat.add_0_r in *. auto.
Qed.
Lemma crash_loop b p l q : read_up_to m b p l q -> bytes b -> forall t inc l0 c fs fuel, nth_error b q = Some t ->
  StronglySorted N.le (inc :: l ++ [t]) -> Forall (fun u => In u (map f_code L)) (l ++ [t]) -> crash_here b (l0 ++ l) q t ->
  counted l0 c -> (length b < fuel + p)%nat -> msg1_loop T m fuel b p inc c fs = Panic.
Proof.
  intros R B. induction R as [p|p t0 k i n l q Ht Hk Hi Hn R IH]; intros t inc l0 c fs fuel Hq Hs HF HC Hc Hfu.
  - assert (Hp : (p < length b)%nat) by (apply nth_error_Some; congruence). destruct fuel as [|fuel]; [lia|]. cbn [msg1_loop].
    destruct (Nat.leb_spec (length b) p); [lia|]. unfold at_. rewrite Hq. cbn [bind]. cbn [app] in Hs, HF. inversion Hs as [|? ? _ Hall]; subst. inversion Hall as [|? ? Hle _]; subst.
    destruct (N.ltb_spec t inc); [lia|]. inversion HF as [|? ? Hin _]; subst. destruct (proj1 (find_arm_known code L T HT t) Hin) as [a Ea]. rewrite Ea.
    rewrite slice_from_ok by lia. cbn [bind]. pose proof (find_arm_kind _ _ _ HT _ _ Ea) as Ek. destruct (skipn_nth _ _ _ Hq) as [s Es].
    assert (Bs : bytes (t :: s)) by (rewrite <- Es; apply bytes_skipn, B).
    pose proof (element_panic m t (a_kind a) s Bs Ek) as EP. rewrite <- Es in EP. rewrite app_nil_r in HC.
    destruct HC as [HC|[(D & E & k & i & Hk & Hi)|(H18 & -> & Hni & e & He)]].
    + apply EP in HC as [->|(i & -> & Hp2)]; [reflexivity|]. destruct (next_cases _ _ t Hc) as [->|[n ->]]; [reflexivity|]. cbn [bind]. rewrite Hp2. reflexivity.
    + rewrite Ek in Hk. injection Hk as ->. rewrite Hi. rewrite (proj2 (next_panic _ _ t Hc)) by auto. reflexivity.
    + pose proof Ek as Ek'. injection Ek' as <-. destruct (proj2 (gsn_err (skipn p b))) as [e' ->]; [eauto|]. rewrite (proj2 (gsn_only _ _ Ea)) by auto. cbn [arm_error].
      specialize (Hc 133). destruct (c 133); [tauto|reflexivity].
  - assert (Hp : (p < length b)%nat) by (apply nth_error_Some; congruence). destruct fuel as [|fuel]; [lia|]. cbn [msg1_loop].
    destruct (Nat.leb_spec (length b) p); [lia|]. unfold at_. rewrite Ht. cbn [bind]. cbn [app] in Hs, HF. inversion Hs as [|? ? Hs' Hall]; subst. inversion Hall as [|? ? Hle _]; subst.
    destruct (N.ltb_spec t0 inc); [lia|]. inversion HF as [|? ? Hin HF']; subst. destruct (proj1 (find_arm_known code L T HT t0) Hin) as [a Ea]. rewrite Ea.
    rewrite slice_from_ok by lia. cbn [bind]. pose proof (find_arm_kind _ _ _ HT _ _ Ea) as Ek. rewrite Ek in Hk. injection Hk as <-. rewrite Hi.
    destruct (next_cases _ _ t0 Hc) as [->|[x Hx]]; [reflexivity|]. rewrite Hx. cbn [bind]. rewrite Hn. cbn [bind].
    destruct n as [|n].
    + exfalso. rewrite Nat.add_0_r in R. assert (q = p) by (eapply stuck; eassumption). subst q. rewrite Ht in Hq. injection Hq as <-.
      destruct (skipn_nth _ _ _ Ht) as [s Es]. assert (Bs : bytes (t0 :: s)) by (rewrite <- Es; apply bytes_skipn, B).
      pose proof (element_panic m t0 (a_kind a) s Bs Ek) as EP. rewrite <- Es in EP.
      destruct HC as [HC|[(D & E & _)|(_ & -> & _ & e & He)]].
      * apply EP in HC as [HC|(i' & HC & HP)]; [congruence|]. rewrite Hi in HC. apply Ok_inj in HC. subst i'. congruence.
      * rewrite D in Hn. pose proof (ie1_len_ge_debug _ _ Hn). lia.
      * injection Ek as Ek. rewrite <- Ek in Hi. destruct (proj2 (gsn_err (skipn p b))) as [e' E']; [eauto|]. congruence.
    + eapply IH with (l0 := l0 ++ [t0]); [exact Hq|exact Hs'|exact HF'|rewrite <- app_assoc; exact HC|eapply counted_next; eassumption|lia].
Qed.
Lemma loop_panic_iff b p fs : bytes b -> (msg1_loop T m (S (length b)) b p 0 (fun _ => None) fs = Panic <-> elements_crash code (map f_code L) m b p).
Proof.
  intros B. assert (C0 : counted [] (fun _ => None)) by (intros t; cbn; auto). split.
  - intros H. destruct (loop_crash _ _ _ _ [] _ _ B C0 H) as (l & q & t & R & Hq & Hs & HF & HC). exists l, q, t. split; [exact R|]. split; [exact Hq|].
    split; [inversion Hs; assumption|]. split; [exact HF|exact HC].
  - intros (l & q & t & R & Hq & Hs & HF & HC). eapply crash_loop with (l0 := []); [exact R|exact B|exact Hq| |exact HF|exact HC|exact C0|lia].
    constructor; [exact Hs|]. apply Forall_forall. intros; lia.
Qed.
End Msg.
