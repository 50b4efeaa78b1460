(* V2ForwardB.v - the MM contexts, as V2ForwardA.v for the other elements. *)
From Verif Require Import BaseFacts V2Forward V2ForwardSpec V2DecSpec V2DecFacts.
Local Open Scope N_scope.

Lemma gives_upto5 {A} n (p : reader A) P : gives p P -> gives (upto5 n p) (vectors_ok P).
Proof.
  intros H. unfold upto5. destruct (N.eqb_spec n 0); [steps; exact I|]. destruct (N.leb_spec n 5); [|steps].
  eapply gives_bind; [apply gives_times, H|]. intros l [L F]. apply gives_yield. cbn [vectors_ok V2OkD.opt_ok]. split; [lia|exact F].
Qed.
Lemma gives_drx c : gives (drx_ c) drx_ok.
Proof.
  intros q v r B E. unfold drx_ in E. destruct (c && _) eqn:C.
  - apply andb_true_iff in C. destruct C as [_ C]. apply Nat.leb_le in C.
    destruct q as [|a [|b q]]; cbn in C; try lia. injection E as <- <-.
    split; [reflexivity|]. apply Forall_cons_iff in B. destruct B as [_ B]. apply Forall_cons_iff in B. apply B.
  - injection E as <- <-. split; [exact I|exact B].
Qed.
Definition hop_ok (x : option (list N) * option N) : Prop :=
  match x with (Some i, Some j) => length i = 32%nat | (None, None) => True | _ => False end.
Lemma gives_next_hop c : gives (next_hop_ c) hop_ok.
Proof.
  intros q v r B E. unfold next_hop_ in E. destruct (c && _).
  - refine (gives_bind _ _ (fun l => length l = 32%nat /\ bytes l) hop_ok (gives_take 32) _ _ _ _ B E).
    intros h Hh. steps. cbn [hop_ok]. apply Hh.
  - injection E as <- <-. split; [exact I|exact B].
Qed.
Lemma gives_higher : gives higher_ (fun _ => True).
Proof.
  unfold higher_. eapply gives_bind; [apply gives_take1|]. intros n _ q v r B E. destruct (_ <=? _)%nat.
  - destruct q; [discriminate|]. injection E as <- <-. split; [exact I|apply bytes_skipn, B].
  - injection E as <- <-. split; [exact I|exact B].
Qed.
Lemma gives_ext_access : gives ext_access_ (fun _ => True).
Proof.
  intros q v r B E. unfold ext_access_ in E. destruct q as [|n q]; [discriminate|]. apply Forall_cons_iff in B as B'. destruct B' as [_ B'].
  destruct (n =? 0); [injection E as <- <-; auto|]. destruct (n =? 1); [|discriminate]. destruct q as [|x q]; [discriminate|].
  injection E as <- <-. apply Forall_cons_iff in B'. split; [exact I|apply B'].
Qed.
Lemma rates_rest : forall f q l r, bytes q -> rates f q = Some (l, r) -> bytes r.
Proof.
  induction f as [|f IH]; intros q l r B E; [discriminate|]. cbn [rates] in E. destruct (RateMm_ q) as [[x y]|].
  - destruct (_ <=? _)%nat; [|discriminate]. destruct (rates f _) as [[l' r']|] eqn:Er; [|discriminate]. injection E as <- <-.
    eapply IH; [|exact Er]. apply bytes_skipn, B.
  - destruct (rates_end q); [|discriminate]. injection E as <- <-. exact B.
Qed.
Lemma gives_rates : gives rates_ (fun _ => True).
Proof.
  intros q v r B E. unfold rates_ in E. destruct q as [|n q]; [discriminate|]. apply Forall_cons_iff in B as B'. destruct B' as [_ B'].
  destruct (n =? 0); [injection E as <- <-; auto|]. destruct (_ <=? _)%nat; [|discriminate].
  destruct (rates _ q) as [[l t]|] eqn:Er; [|discriminate]. injection E as <- <-. split; [exact I|]. eapply rates_rest; eassumption.
Qed.
Lemma gives_iov c : gives (iov_ c) (fun o => o <> None).
Proof. unfold iov_. steps. discriminate. Qed.
Lemma gives_access {A} (f : N -> A) : gives (octet_as f) (fun _ => True).
Proof. steps. exact I. Qed.
Global Hint Resolve gives_drx gives_next_hop gives_higher gives_ext_access gives_rates gives_iov gives_access : gives.
Global Hint Extern 1 (gives (upto5 _ _) _) => (eapply gives_upto5; eauto with gives) : gives.

Lemma cap_there o : there o -> (match o with Some l => l <> [] /\ nlen l < 256 | None => True end) -> cap_ok o.
Proof. intros T H. destruct o; [exact H|]. apply T. reflexivity. Qed.
Lemma if_set_ok {A} c (P : A -> Prop) o : (match o with Some a => c = true /\ P a | None => c = false end) -> V2OkD.opt_ok P o.
Proof. destruct o; cbn; tauto. Qed.
Lemma iov_there h o : (o : option N) <> None -> (h = false -> o <> Some 1) -> iov_ok h o.
Proof. destruct o as [c|]; [|contradiction]. cbn. intros _ H E F. apply (H E). congruence. Qed.

Ltac mm := repeat (match goal with |- _ /\ _ => split end); try assumption; try tauto; try lia;
  try (eapply if_set_ok; eassumption); try (apply cap_there; [tauto|assumption]); try (apply iov_there; tauto).

Lemma MmGsmT_fwd s i : bytes s -> MmGsmT_reads s = Some i -> fit_for plain_survives (IE_MmContext (MmGsmT i)) ->
  MmContext_wf (MmGsmT (true_length (fun y => IE_MmContext (MmGsmT y)) i)).
Proof.
  apply (element_fwd (fun y => IE_MmContext (MmGsmT y)) 103 MmContextGsmKeyTriplets_value MmContextGsmKeyTriplets_ok
    (fun v => there (t_ue v) /\ there (t_ms v) /\ there (t_mei v) -> MmContextGsmKeyTriplets_ok v));
    [intros; apply nlen_marshal|reflexivity| |intros x P Q; exact (Q P)].
  intros _ _ _ _. steps. unfold MmContextGsmKeyTriplets_ok.
  proj. cbn beta in *.
  intros (P1 & P2 & P3). mm.
Qed.
Lemma MmGsmCq_fwd s i : bytes s -> MmGsmCq_reads s = Some i -> fit_for plain_survives (IE_MmContext (MmGsmCq i)) ->
  MmContext_wf (MmGsmCq (true_length (fun y => IE_MmContext (MmGsmCq y)) i)).
Proof.
  apply (element_fwd (fun y => IE_MmContext (MmGsmCq y)) 105 MmContextGsmKeyCipherQuintuplets_value MmContextGsmKeyCipherQuintuplets_ok
    (fun v => there (g_ue v) /\ there (g_ms v) /\ there (g_mei v) /\ g_higher v = true -> MmContextGsmKeyCipherQuintuplets_ok v));
    [intros; apply nlen_marshal|reflexivity| |intros x P Q; exact (Q P)].
  intros _ _ _ _. steps. unfold MmContextGsmKeyCipherQuintuplets_ok.
  proj. cbn beta in *. intros (P1 & P2 & P3 & P4). mm.
Qed.
Lemma MmUmtsCq_fwd s i : bytes s -> MmUmtsCq_reads s = Some i -> fit_for plain_survives (IE_MmContext (MmUmtsCq i)) ->
  MmContext_wf (MmUmtsCq (true_length (fun y => IE_MmContext (MmUmtsCq y)) i)).
Proof.
  apply (element_fwd (fun y => IE_MmContext (MmUmtsCq y)) 104 MmContextUmtsKeyCipherQuintuplets_value MmContextUmtsKeyCipherQuintuplets_ok
    (fun v => there (c_ue v) /\ there (c_ms v) /\ there (c_mei v) /\ there (c_vdn v) /\ (c_higher v = false -> c_iov v <> Some 1) ->
       MmContextUmtsKeyCipherQuintuplets_ok v));
    [intros; apply nlen_marshal|reflexivity| |intros x P Q; exact (Q P)].
  intros _ _ _ _. steps. unfold MmContextUmtsKeyCipherQuintuplets_ok.
  proj. cbn beta in *. intros (P1 & P2 & P3 & P4 & P5). mm.
Qed.
Lemma MmUmtsQ_fwd s i : bytes s -> MmUmtsQ_reads s = Some i -> fit_for plain_survives (IE_MmContext (MmUmtsQ i)) ->
  MmContext_wf (MmUmtsQ (true_length (fun y => IE_MmContext (MmUmtsQ y)) i)).
Proof.
  apply (element_fwd (fun y => IE_MmContext (MmUmtsQ y)) 106 MmContextUmtsKeyQuintuplets_value MmContextUmtsKeyQuintuplets_ok
    (fun v => there (q_ue v) /\ there (q_ms v) /\ there (q_mei v) /\ there (q_vdn v) /\ (q_higher v = false -> q_iov v <> Some 1) ->
       MmContextUmtsKeyQuintuplets_ok v));
    [intros; apply nlen_marshal|reflexivity| |intros x P Q; exact (Q P)].
  intros _ _ _ _. steps. unfold MmContextUmtsKeyQuintuplets_ok.
  proj. cbn beta in *. intros (P1 & P2 & P3 & P4 & P5). mm.
Qed.
Lemma MmUmtsQq_fwd s i : bytes s -> MmUmtsQq_reads s = Some i -> fit_for plain_survives (IE_MmContext (MmUmtsQq i)) ->
  MmContext_wf (MmUmtsQq (true_length (fun y => IE_MmContext (MmUmtsQq y)) i)).
Proof.
  apply (element_fwd (fun y => IE_MmContext (MmUmtsQq y)) 108 MmContextUmtsKeyQuadrupletsQuintuplets_value MmContextUmtsKeyQuadrupletsQuintuplets_ok
    (fun v => there (d_ue v) /\ there (d_ms v) /\ there (d_mei v) /\ d_rates v = None -> MmContextUmtsKeyQuadrupletsQuintuplets_ok v));
    [intros; apply nlen_marshal|reflexivity| |intros x P Q; exact (Q P)].
  intros _ _ _ _. steps. unfold MmContextUmtsKeyQuadrupletsQuintuplets_ok.
  proj. cbn beta in *. intros (P1 & P2 & P3 & P4). mm.
Qed.
Lemma MmEps_fwd s i : bytes s -> MmEps_reads s = Some i -> fit_for plain_survives (IE_MmContext (MmEps i)) ->
  MmContext_wf (MmEps (true_length (fun y => IE_MmContext (MmEps y)) i)).
Proof.
  apply (element_fwd (fun y => IE_MmContext (MmEps y)) 107 MmContextEpsSecurityContextQuadruplets_value MmContextEpsSecurityContextQuadruplets_ok
    (fun v => there (e_ue v) /\ there (e_ms v) /\ there (e_mei v) /\
      (e_ext v <> None \/ e_addsec v = None /\ e_nrsec v = None) /\ given (fun n => n < 8) (e_ncc v) /\
      e_rates v = None /\ e_core v = None /\ e_radioid v = None /\ e_ensct v = Some 0 -> MmContextEpsSecurityContextQuadruplets_ok v));
    [intros; apply nlen_marshal|reflexivity| |intros x P Q; exact (Q P)].
  intros _ _ _ _. steps. unfold MmContextEpsSecurityContextQuadruplets_ok, eps_tail_ok.
  proj. cbn beta in *. intros (P1 & P2 & P3 & P4 & P5 & P6 & P7 & P8 & P9). mm.
  match goal with H : hop_ok ?n |- _ => destruct n as [[h|] [j|]]; cbn [hop_ok fst snd given] in *; tauto end.
Qed.
