(* V1CTabErrFacts.v - what the GTPv1-C message decoders made from tables find wrong, in the terms of
   V1CHdrErrSpec.v. *)
From Coq Require Import Sorted.
From Verif Require Import BaseFacts V1U V1UFacts V1CHdr V1CIe V1CKind V1CMsg V1CMsgSpec V1CMsgFacts V1CMsgRead V1CExact V1CMsgSafety V1CErr V1CHdrErrSpec.
Local Open Scope N_scope.

Lemma rank_cons f L t j : rank (f :: L) t (S j) = ((if (f_code f =? t)%N then 1 else 0) + rank L t j)%nat.
Proof. unfold rank. cbn [firstn filter]. destruct (f_code f =? t); reflexivity. Qed.
Lemma field_for_exists t : forall L n, In t (map f_code L) -> exists f, field_for L t n f.
Proof.
  induction L as [|f L IH]; intros n Hin; [contradiction|]. cbn [map In] in Hin.
  destruct (N.eqb_spec (f_code f) t) as [E|E].
  - destruct n as [|n]; [exists f, 0%nat; split; [reflexivity|]; split; [exact E|]; left; reflexivity|].
    destruct (in_dec N.eq_dec t (map f_code L)) as [H|H].
    + destruct (IH n H) as (g & j & Hj & Hg & Hr). exists g, (S j). split; [exact Hj|]. split; [exact Hg|].
      rewrite rank_cons. rewrite (proj2 (N.eqb_eq _ _) E). destruct Hr as [Hr|[Hr Hl]]; [left; lia|right; split; [lia|]].
      intros [|j'] f' Hj' Hf'; [lia|]. specialize (Hl j' f' Hj' Hf'). lia.
    + exists f, 0%nat. split; [reflexivity|]. split; [exact E|]. right. split; [cbn; lia|].
      intros [|j'] f' Hj' Hf'; [lia|]. exfalso. apply H. rewrite <- Hf'. apply in_map. eapply nth_error_In, Hj'.
  - destruct Hin as [Hin|Hin]; [contradiction|]. destruct (IH n Hin) as (g & j & Hj & Hg & Hr). exists g, (S j). split; [exact Hj|]. split; [exact Hg|].
    rewrite rank_cons. destruct (N.eqb_spec (f_code f) t) as [|_]; [contradiction|]. destruct Hr as [Hr|[Hr Hl]]; [left; lia|right; split; [lia|]].
    intros [|j'] f' Hj' Hf'; [lia|]. specialize (Hl j' f' Hj' Hf'). lia.
Qed.

Section Tab.
Context (code : N) (L : list field1) (T : table1) (HI : In (code, L, T) messages1).
Let HT : check_table code L T = true := messages1_checked _ _ _ HI.

Definition counted (l : list (N * ie1)) (c : counts1) : Prop := forall t, c t = optc (length (occ t l)).
Lemma counted_put l c t i : counted l c -> counted (l ++ [(t, i)]) (put1 c t (N.of_nat (S (length (occ t l))))).
Proof.
  intros H u. unfold put1. rewrite occ_app, occ_one, app_length, N.eqb_sym. destruct (N.eqb_spec t u) as [->|Hn]; cbn [length].
  - rewrite Nat.add_1_r. reflexivity.
  - rewrite Nat.add_0_r. apply H.
Qed.
Lemma len_no_err i e : ie1_len Debug i = Err e -> False.
Proof. destruct i; cbn [ie1_len]; try discriminate; unfold len_u16, add16, ov; destruct (_ <? _); cbn [bind]; discriminate. Qed.
Lemma next_debug l c t n : counted l c -> next_count Debug (c t) = Ok n -> n = N.of_nat (S (length (occ t l))) /\ (length (occ t l) < 255)%nat.
Proof.
  intros H Hn. rewrite H in Hn. destruct (length (occ t l)) as [|k]; cbn [optc next_count] in Hn; [injection Hn as <-; split; [reflexivity|lia]|].
  unfold add8, ov in Hn. destruct (N.ltb_spec (N.of_nat (S k) + 1) 256); [|discriminate]. injection Hn as <-. split; lia.
Qed.
Lemma next_no_err c e : next_count Debug c = Err e -> False.
Proof. destruct c; [|discriminate]. cbn. unfold add8, ov. destruct (_ <? _); discriminate. Qed.

(* what the loop has read when it stops *)
Lemma loop_stops b : forall fuel p inc c fs l0, counted l0 c -> (forall t, (length (occ t l0) <= 255)%nat) ->
  match msg1_loop T Debug fuel b p inc c fs with
  | Ok r => exists l, reads Debug b p l /\ StronglySorted N.le (inc :: map fst l) /\ (forall t, In t (map fst l) -> In t (map f_code L)) /\
              (forall t, (length (occ t (l0 ++ l)) <= 255)%nat) /\ counted (l0 ++ l) (fst r)
  | Err e => exists l q t, reads_to Debug b p l q /\ StronglySorted N.le (inc :: map fst l) /\ (forall t, In t (map fst l) -> In t (map f_code L)) /\
              (forall t, (length (occ t (l0 ++ l)) <= 255)%nat) /\ nth_error b q = Some t /\
              ((e = MessageInvalidMessageFormat /\ (t < last (map fst l) inc \/ ~ In t (map f_code L))) \/
               (last (map fst l) inc <= t /\ In t (map f_code L) /\
                exists k e', code_kind t = Some k /\ ie1_unmarshal k Debug (skipn q b) = Err e'))
  | _ => True
  end.
Proof.
  induction fuel as [|fuel IH]; intros p inc c fs l0 Hc Hn; [exact I|]. cbn [msg1_loop].
  destruct (Nat.leb_spec (length b) p) as [Hp|Hp].
  { exists []. cbn [map]. rewrite app_nil_r. split; [constructor; exact Hp|]. split; [constructor; constructor|]. split; [contradiction|]. auto. }
  unfold at_. destruct (nth_error b p) as [t|] eqn:Et; [cbn [bind]|apply nth_error_None in Et; lia].
  destruct (N.ltb_spec t inc) as [Hlt|Hge].
  { exists [], p, t. cbn [map last]. rewrite app_nil_r. split; [constructor|]. split; [constructor; constructor|]. split; [contradiction|]. auto 10. }
  destruct (find_arm (t_arms T) t) as [a|] eqn:Ea.
  2:{ exists [], p, t. cbn [map last]. rewrite app_nil_r. split; [constructor|]. split; [constructor; constructor|]. split; [contradiction|].
      split; [exact Hn|]. split; [exact Et|]. left. split; [reflexivity|]. right. intros Hin. apply (find_arm_known code L T HT) in Hin as (a & Ha). congruence. }
  assert (Hin : In t (map f_code L)) by (apply (find_arm_known code L T HT); eauto).
  pose proof (find_arm_kind code L T HT _ _ Ea) as Hk.
  rewrite slice_from_ok by lia. cbn [bind]. destruct (ie1_unmarshal (a_kind a) Debug (skipn p b)) as [i|e'| |] eqn:Ei; [| |exact I|exact I].
  2:{ assert (G : exists l q t0, reads_to Debug b p l q /\ StronglySorted N.le (inc :: map fst l) /\ (forall t, In t (map fst l) -> In t (map f_code L)) /\
        (forall t, (length (occ t (l0 ++ l)) <= 255)%nat) /\ nth_error b q = Some t0 /\ last (map fst l) inc <= t0 /\ In t0 (map f_code L) /\
                exists k e', code_kind t0 = Some k /\ ie1_unmarshal k Debug (skipn q b) = Err e').
      { exists [], p, t. cbn [map last]. rewrite app_nil_r. split; [constructor|]. split; [constructor; constructor|]. split; [contradiction|]. eauto 12. }
      destruct (arm_error _ _ _) as [e|e| |] eqn:Er; cbn [bind]; try exact I.
      - destruct G as (l & q & t0 & G1 & G2 & G3 & G4 & G5 & G6). exists l, q, t0. auto 10.
      - exfalso. unfold arm_error in Er. destruct (a_err a); try discriminate; [destruct (_ =? _); discriminate|]. destruct (c t); [|discriminate]. destruct (_ <? _); discriminate. }
  destruct (next_count Debug (c t)) as [n|e| |] eqn:En; cbn [bind]; try exact I; [|exfalso; exact (next_no_err _ _ En)].
  destruct (ie1_len Debug i) as [k|e| |] eqn:El; cbn [bind]; try exact I; [|exfalso; exact (len_no_err _ _ El)].
  destruct (next_debug _ _ _ _ Hc En) as [-> Hlt]. pose proof (ie1_len_ge_debug _ _ El) as H2.
  specialize (IH (p + k)%nat t (put1 c t (N.of_nat (S (length (occ t l0)))))
    (match arm_target (a_slots a) (c t) with Some s => set_field fs s i | None => fs end) (l0 ++ [(t, i)]) (counted_put _ _ _ _ Hc)).
  assert (Hn' : forall u, (length (occ u (l0 ++ [(t, i)])) <= 255)%nat).
  { intros u. rewrite occ_app, occ_one, app_length. specialize (Hn u). destruct (N.eqb_spec t u) as [->|]; cbn [length]; lia. }
  specialize (IH Hn').
  assert (HS : forall l, StronglySorted N.le (t :: map fst l) -> StronglySorted N.le (inc :: map fst ((t, i) :: l))).
  { intros l Hs. cbn [map fst]. constructor; [exact Hs|]. inversion Hs as [|? ? _ Hall]; subst. constructor; [exact Hge|].
    eapply Forall_impl; [|exact Hall]. cbv beta. intros; lia. }
  assert (HF : forall l, (forall u, In u (map fst l) -> In u (map f_code L)) -> forall u, In u (map fst ((t, i) :: l)) -> In u (map f_code L)).
  { intros l H u [<-|Hu]; [exact Hin|apply H, Hu]. }
  destruct (msg1_loop _ _ _ _ _ _ _ _) as [r|e| |]; try exact I.
  - destruct IH as (l & H1 & Hs & Hf & Hoc & Hcn). exists ((t, i) :: l). rewrite <- app_assoc in Hoc, Hcn.
    split; [econstructor; eassumption|]. split; [apply HS, Hs|]. split; [apply HF, Hf|]. auto.
  - destruct IH as (l & q & u & H1 & Hs & Hf & Hoc & Hq & Hx). exists ((t, i) :: l), q, u. rewrite <- app_assoc in Hoc.
    split; [eapply to_more; try eassumption; lia|]. split; [apply HS, Hs|]. split; [apply HF, Hf|]. split; [exact Hoc|]. split; [exact Hq|].
    cbn [map fst]. rewrite last_cons. exact Hx.
Qed.

Lemma forall_in {A} (P : A -> Prop) l : (forall t, In t l -> P t) -> Forall P l.
Proof. intros H. apply Forall_forall, H. Qed.

(* what was read is enough to know what the decoder returns *)
Lemma wrong_ok b h p e : chdr_unmarshal Debug b = Ok h -> c_msgtype h = code -> chdr_len Debug h = Ok p -> c_length h <= 65527 -> 8 + c_length h <= nlen b ->
  elements_wrong code L b p e -> msg1_unmarshal T Debug b = Err e.
Proof.
  intros Hh Ht Hp Hl Hb Hw.
  destruct Hw as [l q t u Hr (Ks & Kf & Kn) Hq Hu Hlt|l q t Hr (Ks & Kf & Kn) Hq Hno|l q t k e f e' Hr (Ks & Kf & Kn) Hq Hle Hk He (j & Hj & Hf & Hrk) Hrep|l f Hr (Ks & Kf & Kn) Hf Hm Hno].
  - eapply (out_of_order code L T HI Debug b h p l q t); try eassumption; [apply forall_in, Kf|]. left. eauto.
  - eapply (out_of_order code L T HI Debug b h p l q t); try eassumption; [apply forall_in, Kf|]. right. exact Hno.
  - destruct Hrk as [Hrk|[Hrk Hlast]].
    + rewrite (refused code L T HI Debug b h p l q t k e j f) by (assumption || apply forall_in, Kf). rewrite Hrep. reflexivity.
    + rewrite (surplus code L T HI Debug b h p l q t k e j f) by (assumption || apply forall_in, Kf). rewrite Hrep. reflexivity.
  - eapply (msg1_missing code L T HT Debug b h p l (c_length h + 8) f); try eassumption; [apply add16_small; lia|unfold nlen in Hb; lia|apply forall_in, Kf].
Qed.
Lemma wrong_iff b h p e : chdr_unmarshal Debug b = Ok h -> c_msgtype h = code -> chdr_len Debug h = Ok p -> c_length h <= 65527 -> 8 + c_length h <= nlen b ->
  (msg1_unmarshal T Debug b = Err e <-> elements_wrong code L b p e).
Proof.
  intros Hh Ht Hp Hl Hb. split; [|apply (wrong_ok b h p e); assumption]. intros H.
  pose proof (loop_stops b (S (length b)) p 0 (fun _ => None) (map s_default (t_slots T)) [] ltac:(intros t; reflexivity) ltac:(intros t; cbn; lia)) as HL.
  pose proof H as H'. unfold msg1_unmarshal in H. rewrite Hh in H. cbn [bind] in H. rewrite Ht, (tab_code code L T HT), N.eqb_refl in H. cbn [negb] in H.
  rewrite add16_small in H by lia. cbn [bind] in H. unfold nlen in Hb. destruct (Nat.leb_spec (N.to_nat (c_length h + 8)) (length b)); [|lia].
  rewrite Hp in H. cbn [bind] in H. destruct (msg1_loop _ _ _ _ _ _ _ _) as [r|e1| |]; try discriminate H.
  - cbn [bind] in H. destruct HL as (l & Hr & Hs & Hf & Hn & Hc). cbn [app] in Hn, Hc. destruct (forallb _ _) eqn:Ef; [discriminate|]. injection H as <-.
    assert (G : exists t, In t (t_required T) /\ is_some (fst r t) = false).
    { clear -Ef. revert Ef. induction (t_required T) as [|t l' IH]; [discriminate|]. cbn [forallb]. destruct (is_some (fst r t)) eqn:E.
      - intros H. destruct (IH H) as (u & Hu & Hu'). exists u. split; [right; exact Hu|exact Hu'].
      - intros _. exists t. split; [left; reflexivity|exact E]. }
    destruct G as (t & Hreq & Hnone). destruct (tab_required code L T HT t Hreq) as (f & Hfl & <- & Hm).
    apply (ew_missing code L b p l f); [exact Hr| |exact Hfl|exact Hm|].
    + inversion Hs; subst. split; [assumption|]. split; assumption.
    + intros Hin. apply (occ_in code L T) in Hin. rewrite Hc in Hnone. destruct (length (occ (f_code f) l)); [lia|discriminate].
  - cbn [bind] in H. injection H as <-. destruct HL as (l & q & t & Hr & Hs & Hf & Hn & Hq & Hx). cbn [app] in Hn.
    assert (Ks : StronglySorted N.le (map fst l)) by (inversion Hs; assumption).
    assert (HK : known_elements L l) by (split; [exact Ks|split; assumption]).
    destruct Hx as [[-> [Hlt|Hno]]|(Hle & Hin & k & e' & Hk & He)].
    + apply (ew_order code L b p l q t (last (map fst l) 0)); [exact Hr|exact HK|exact Hq| |exact Hlt].
      apply last_in. intros E. rewrite E in Hlt. cbn in Hlt. lia.
    + apply (ew_unknown code L b p l q t); assumption.
    + destruct (field_for_exists t L (length (occ t l)) Hin) as (f & Hff).
      assert (Hle' : forall u, In u (map fst l) -> u <= t) by (intros u Hu; pose proof (last_max code L T _ 0 _ Ks Hu); lia).
      apply (ew_element code L b p l q t k e' f); try assumption. destruct Hff as (j & Hj & Hf' & Hrk).
      assert (HR : msg1_unmarshal T Debug b = (let? e := report code f in Err e)).
      { destruct Hrk as [Hrk|[Hrk Hlast]].
        - apply (refused code L T HI Debug b h p l q t k e' j f); assumption || apply forall_in, Hf.
        - apply (surplus code L T HI Debug b h p l q t k e' j f); assumption || apply forall_in, Hf. }
      rewrite H' in HR. destruct (report code f) as [e2|e2| |] eqn:Erep; cbn [bind] in HR; try discriminate; injection HR as ->; [reflexivity|].
      exfalso. unfold report in Erep. destruct (listed code f) as [x|] eqn:El; [|discriminate]. subst x. unfold listed, option_map in El.
      destruct (find _ other_reports) as [y|] eqn:Ey; [|discriminate]. injection El as El. apply find_some in Ey as [Ey _].
      unfold other_reports in Ey. cbn [In] in Ey. repeat destruct Ey as [Ey|Ey]; try contradiction; subst y; discriminate El.
Qed.
End Tab.
