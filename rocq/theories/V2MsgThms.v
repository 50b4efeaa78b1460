(* V2MsgThms.v - mandatory IEs, duplicates, and the round trip through tovec and fromvec, for any message
   whose tables fit its layout; and the checks that the 83 messages do. *)
From Coq Require Import String.
From Verif Require Import Base BaseFacts.
From Verif Require Export V2MsgFacts V2MsgCode V2MsgLayouts.
Local Open Scope nat_scope.

(* ------------------------------------------------------------------------- *)
(* The final check against the layout *)

Definition n_flags (d : message_def) : nat :=
  fold_right Nat.max 0 (map (fun r => match arm_flag r with Some k => S k | None => 0 end) (md_arms d)).

(* each flag stands for one required field *)
Definition flags_fit (d : message_def) (L : layout) : bool :=
  forallb (fun k => count (flag_is k) (md_arms d) =? 1) (seq 0 (n_flags d)) &&
  forallb (fun r => match arm_flag r with
                    | None => true
                    | Some _ => match nth_error L (r_slot r) with
                                | Some f => match f_req f with Some c => ins_eqb c (r_ins r) | None => false end
                                | None => false
                                end
                    end) (md_arms d) &&
  forallb (fun p => match f_req (snd p) with
                    | None => true
                    | Some c => existsb (fun r => (r_slot r =? fst p) && ins_eqb c (r_ins r) &&
                                                  match arm_flag r with Some _ => true | None => false end) (md_arms d)
                    end) (numbered L).

(* all assignments of n flags *)
Fixpoint assignments (n : nat) : list (list bool) :=
  match n with
  | O => [[]]
  | S n => flat_map (fun v => [true :: v; false :: v]) (assignments n)
  end.

Definition keys_below (d : message_def) : bool :=
  forallb (fun p => forallb (fun q => fst q <? n_flags d) (fst p)) (md_final d).

Definition final_enforces (d : message_def) : bool :=
  keys_below d &&
  forallb (fun v => Bool.eqb (match decide (fun k => nth k v false) (md_final d) with None => true | Some _ => false end)
                             (forallb (fun b => b) v)) (assignments (n_flags d)).

Definition final_names (d : message_def) : bool :=
  forallb (fun v => match decide (fun k => nth k v false) (md_final d) with
                    | None => true
                    | Some c => existsb (fun r => match arm_flag r with
                                                  | Some k => negb (nth k v false) &&
                                                              match kind_code (r_kind r) with Some c' => (c' =? c)%N | None => false end
                                                  | None => false
                                                  end) (md_arms d)
                    end) (assignments (n_flags d)).

Lemma assignments_all v : In v (assignments (length v)).
Proof.
  induction v as [|b v IH]; cbn; [auto|]. apply in_flat_map. exists v. split; auto. destruct b; cbn; auto.
Qed.

Lemma decide_ext f g l n : (forall k, k < n -> f k = g k) ->
  forallb (fun p : list (nat * bool) * option N => forallb (fun q => fst q <? n) (fst p)) l = true -> decide f l = decide g l.
Proof.
  intros H. induction l as [|[c o] l IH]; cbn; [reflexivity|]. rewrite andb_true_iff. intros [H1 H2].
  assert (X : forallb (fun p => Bool.eqb (f (fst p)) (snd p)) c = forallb (fun p => Bool.eqb (g (fst p)) (snd p)) c).
  { induction c as [|[k b] c IHc]; cbn in *; [reflexivity|]. rewrite andb_true_iff in H1. destruct H1 as [H1 H3].
    apply Nat.ltb_lt in H1. rewrite H, IHc by assumption. reflexivity. }
  rewrite X. rewrite IH by assumption. reflexivity.
Qed.

Lemma n_flags_lt d r k : In r (md_arms d) -> arm_flag r = Some k -> k < n_flags d.
Proof.
  unfold n_flags. induction (md_arms d) as [|a l IH]; cbn; [contradiction|]. intros [->|H] E.
  - rewrite E. lia.
  - specialize (IH H E). lia.
Qed.

Definition vec (d : message_def) (fl : nat -> bool) : list bool := map fl (seq 0 (n_flags d)).
Lemma vec_nth d fl k : k < n_flags d -> nth k (vec d fl) false = fl k.
Proof.
  intros H. unfold vec. rewrite (nth_indep _ false (fl 0)) by (rewrite map_length, seq_length; exact H).
  rewrite map_nth, seq_nth by exact H. reflexivity.
Qed.
Lemma vec_in d fl : In (vec d fl) (assignments (n_flags d)).
Proof.
  assert (E : length (vec d fl) = n_flags d) by (unfold vec; rewrite map_length, seq_length; reflexivity).
  pose proof (assignments_all (vec d fl)) as H. rewrite E in H. exact H.
Qed.

Section Final.
Variables (d : message_def) (L : layout).
Hypothesis G : good d L = true.
Hypothesis F : flags_fit d L = true.

Lemma flag_once k : k < n_flags d -> count (flag_is k) (md_arms d) = 1.
Proof.
  intros H. unfold flags_fit in F. rewrite !andb_true_iff, !forallb_forall in F. destruct F as [[H1 _] _].
  apply Nat.eqb_eq, H1, in_seq. lia.
Qed.
Lemma flag_required r k : In r (md_arms d) -> arm_flag r = Some k ->
  exists f, nth_error L (r_slot r) = Some f /\ f_req f = Some (r_ins r) /\ f_kind f = r_kind r.
Proof.
  intros Hr Hk. unfold flags_fit in F. rewrite !andb_true_iff, !forallb_forall in F. destruct F as [[_ H1] _]. specialize (H1 _ Hr).
  cbv beta in H1. rewrite Hk in H1. destruct (arm_field d L G r Hr) as [f [Hf [Kf _]]]. rewrite Hf in H1.
  destruct (f_req f) as [c|] eqn:E; [|discriminate]. apply ins_eqb_eq in H1. subst c. exists f. auto.
Qed.
Lemma required_flag f c : In f L -> f_req f = Some c ->
  exists r k, In r (md_arms d) /\ arm_flag r = Some k /\ r_ins r = c /\ r_kind r = f_kind f.
Proof.
  intros Hf Hc. apply In_nth_error in Hf. destruct Hf as [i Hf].
  unfold flags_fit in F. rewrite !andb_true_iff, !forallb_forall in F. destruct F as [_ H1].
  specialize (H1 _ (numbered_in _ _ _ Hf)). cbn [fst snd] in H1. rewrite Hc, existsb_exists in H1. destruct H1 as [r [Hr H1]].
  rewrite !andb_true_iff, Nat.eqb_eq in H1. destruct H1 as [[S1 S2] S3]. apply ins_eqb_eq in S2.
  destruct (arm_flag r) as [k|] eqn:E; [|discriminate]. exists r, k. repeat split; auto.
  destruct (arm_field d L G r Hr) as [g [Hg [Kg _]]]. rewrite S1, Hf in Hg. injection Hg as <-. exact Kg.
Qed.

Lemma satisfies_matches r f c e : r_kind r = f_kind f -> r_ins r = c -> (satisfies f c e <-> arm_matches r e = true).
Proof.
  intros K I. unfold satisfies, arm_matches. rewrite andb_true_iff, kind_eqb_eq, ins_test_in, K, I. tauto.
Qed.

(* a flag that was not set is a required field that is missing *)
Lemma flag_missing l r k : In r (md_arms d) -> arm_flag r = Some k -> ~ flag_seen d l k ->
  exists f, In f L /\ f_kind f = r_kind r /\ missing f l.
Proof.
  intros Hr Hk Hn. destruct (flag_required r k Hr Hk) as [f [Hf [Rf Kf]]]. exists f. repeat split; auto.
  - eapply nth_error_In; exact Hf.
  - exists (r_ins r). split; auto. intros e He Hs. apply Hn. exists r, e. repeat split; auto. rewrite <- satisfies_matches; eauto.
Qed.
Lemma missing_flag l f : In f L -> missing f l -> exists r k, In r (md_arms d) /\ arm_flag r = Some k /\ ~ flag_seen d l k.
Proof.
  intros Hf [c [Rc Hc]]. destruct (required_flag f c Hf Rc) as [r [k [Hr [Hk [I K]]]]]. exists r, k. repeat split; auto.
  intros [q [e [Hq [Fq [He Me]]]]]. assert (q = r).
  { eapply (count_one (flag_is k)); auto; [apply flag_once; eapply n_flags_lt; eassumption|exact Hq|exact Hr| |]; unfold flag_is; [rewrite Fq|rewrite Hk]; apply Nat.eqb_refl. }
  subst q. apply (Hc e He). rewrite satisfies_matches; eauto.
Qed.

Hypothesis E : final_enforces d = true.

Lemma decide_vec fl : decide fl (md_final d) = decide (fun k => nth k (vec d fl) false) (md_final d).
Proof.
  unfold final_enforces, keys_below in E. rewrite andb_true_iff in E. destruct E as [E1 _].
  eapply decide_ext; [|exact E1]. intros k Hk. symmetry. apply vec_nth. exact Hk.
Qed.

Lemma fromvec_ok_iff l : (exists x, fromvec d l = Ok x) <-> forall f, In f L -> ~ missing f l.
Proof.
  unfold fromvec. set (st := fold_left (step d) l (mkSt (md_init d) [])).
  assert (Hfl : forall k, flag_set st k = true <-> flag_seen d l k) by (intros k; apply (run_flags d L G)).
  pose proof (decide_vec (flag_set st)) as Hd.
  assert (H0 := E). unfold final_enforces in H0. rewrite andb_true_iff, forallb_forall in H0. destruct H0 as [_ H0]. specialize (H0 _ (vec_in d (flag_set st))).
  cbv beta in H0. rewrite <- Hd in H0. apply eqb_prop in H0.
  split.
  - intros [x Hx] f Hf Hm. destruct (decide (flag_set st) (md_final d)); [discriminate|]. symmetry in H0. rewrite forallb_forall in H0.
    destruct (missing_flag l f Hf Hm) as [r [k [Hr [Hk Hn]]]]. apply Hn, Hfl. apply H0. unfold vec. apply in_map, in_seq.
    pose proof (n_flags_lt d r k Hr Hk). lia.
  - intros H. destruct (decide (flag_set st) (md_final d)) eqn:Ed; [|eauto]. exfalso.
    assert (X : forallb (fun b => b) (vec d (flag_set st)) = true); [|congruence].
    apply forallb_forall. intros b Hb. unfold vec in Hb. apply in_map_iff in Hb. destruct Hb as [k [<- Hk]]. apply in_seq in Hk.
    destruct (flag_set st k) eqn:Ek; auto. exfalso.
    pose proof (flag_once k ltac:(lia)) as C. unfold count in C. destruct (filter (flag_is k) (md_arms d)) as [|r s] eqn:Er; [discriminate|].
    assert (Hr : In r (filter (flag_is k) (md_arms d))) by (rewrite Er; left; auto). apply filter_In in Hr. destruct Hr as [Hr Kr].
    unfold flag_is in Kr. destruct (arm_flag r) as [j|] eqn:Ej; [|discriminate]. apply Nat.eqb_eq in Kr. subst j.
    assert (Hn : ~ flag_seen d l k) by (rewrite <- Hfl, Ek; discriminate).
    destruct (flag_missing l r k Hr Ej Hn) as [f [Hf [_ Hm]]]. exact (H f Hf Hm).
Qed.

Lemma fromvec_err l e : fromvec d l = Err e -> exists c, e = MessageMandatoryIEMissing c /\ exists f, In f L /\ missing f l.
Proof.
  intros H. assert (X : exists c, e = MessageMandatoryIEMissing c).
  { unfold fromvec in H. destruct (decide _ _); [injection H as <-; eauto|discriminate]. }
  destruct X as [c ->]. exists c. split; auto.
  unfold fromvec in H. set (st := fold_left (step d) l (mkSt (md_init d) [])) in *.
  assert (Hfl : forall k, flag_set st k = true <-> flag_seen d l k) by (intros k; apply (run_flags d L G)).
  pose proof (decide_vec (flag_set st)) as Hd.
  assert (H0 := E). unfold final_enforces in H0. rewrite andb_true_iff, forallb_forall in H0. destruct H0 as [_ H0]. specialize (H0 _ (vec_in d (flag_set st))).
  cbv beta in H0. rewrite <- Hd in H0. apply eqb_prop in H0. destruct (decide (flag_set st) (md_final d)); [|discriminate].
  assert (X : exists k, In k (seq 0 (n_flags d)) /\ flag_set st k = false).
  { unfold vec in H0. clear - H0. induction (seq 0 (n_flags d)) as [|k s IH]; cbn in H0; [discriminate|].
    destruct (flag_set st k) eqn:Ek; [|exists k; cbn; auto]. destruct (IH H0) as [j [Hj Ej]]. exists j. cbn; auto. }
  destruct X as [k [Hk Ek]]. apply in_seq in Hk.
  pose proof (flag_once k ltac:(lia)) as C. unfold count in C. destruct (filter (flag_is k) (md_arms d)) as [|r s] eqn:Er; [discriminate|].
  assert (Hr : In r (filter (flag_is k) (md_arms d))) by (rewrite Er; left; auto). apply filter_In in Hr. destruct Hr as [Hr Kr].
  unfold flag_is in Kr. destruct (arm_flag r) as [j|] eqn:Ej; [|discriminate]. apply Nat.eqb_eq in Kr. subst j.
  assert (Hn : ~ flag_seen d l k) by (rewrite <- Hfl, Ek; discriminate).
  destruct (flag_missing l r k Hr Ej Hn) as [f [Hf [_ Hm]]]. eauto.
Qed.

Lemma fromvec_err_names l e : final_names d = true -> fromvec d l = Err e ->
  exists c f, e = MessageMandatoryIEMissing c /\ In f L /\ missing f l /\ forall x, kind_of x = f_kind f -> has_code x c.
Proof.
  intros Nm H. unfold fromvec in H. set (st := fold_left (step d) l (mkSt (md_init d) [])) in *.
  assert (Hfl : forall k, flag_set st k = true <-> flag_seen d l k) by (intros k; apply (run_flags d L G)).
  pose proof (decide_vec (flag_set st)) as Hd.
  unfold final_names in Nm. rewrite forallb_forall in Nm. specialize (Nm _ (vec_in d (flag_set st))). cbv beta in Nm. rewrite <- Hd in Nm.
  destruct (decide (flag_set st) (md_final d)) as [c|]; [|discriminate]. injection H as <-.
  rewrite existsb_exists in Nm. destruct Nm as [r [Hr Nm]]. destruct (arm_flag r) as [k|] eqn:Ek; [|discriminate].
  rewrite andb_true_iff, negb_true_iff, vec_nth in Nm by (eapply n_flags_lt; eassumption). destruct Nm as [Nk Nc].
  assert (Hn : ~ flag_seen d l k) by (rewrite <- Hfl, Nk; discriminate).
  destruct (flag_missing l r k Hr Ek Hn) as [f [Hf [Kf Hm]]]. exists c, f. repeat split; auto.
  intros x Hx. destruct (kind_code (r_kind r)) as [c'|] eqn:Ec; [|discriminate]. apply N.eqb_eq in Nc. subst c'.
  apply kind_code_ok. rewrite Hx, Kf. exact Ec.
Qed.
End Final.

(* ------------------------------------------------------------------------- *)
(* What the fields hold *)

Lemma fromvec_contents d L l x : good d L = true -> fromvec d l = Ok x -> x = contents d L l.
Proof.
  intros G. unfold fromvec. destruct (decide _ _); [discriminate|]. intros [= <-]. apply run_slots; exact G.
Qed.

(* a field that keeps what its arity says and is empty before decoding *)
Definition natural (f : field_spec) : bool :=
  match f_arity f, f_keep f with Many, KeepAll => true | (One | Opt), KeepFirst => true | _, _ => false end.

Lemma received_contents d L l i f : good d L = true -> nth_error L i = Some f -> natural f = true -> is_nil (nth i (md_init d) []) = true ->
  received f l (nth i (contents d L l) []).
Proof.
  intros G Hf Hn Hi. rewrite (nth_error_nth _ _ _ (contents_nth d L l i f Hf)).
  destruct (nth i (md_init d) []); [|discriminate]. exists (filter (fits f) l). split.
  - apply sublist_filter. apply fits_belongs.
  - unfold natural in Hn. destruct (f_arity f), (f_keep f); try discriminate; cbn [keeps or_else];
      destruct (filter (fits f) l); reflexivity.
Qed.

(* ------------------------------------------------------------------------- *)
(* tovec then fromvec *)

Definition tovec_fits (d : message_def) (L : layout) : bool :=
  (length (md_tovec d) =? length L) && forallb (fun i => i <? length L) (md_tovec d) && pairwise (fun a b => negb (a =? b)) (md_tovec d).
Definition init_fits (d : message_def) (L : layout) : bool :=
  forallb (fun p => match f_arity (snd p) with One => true | _ => is_nil (nth (fst p) (md_init d) []) end) (numbered L).

Lemma pairwise_nodup l : pairwise (fun a b => negb (a =? b)) l = true -> NoDup l.
Proof.
  induction l as [|x l IH]; cbn; [constructor|]. rewrite andb_true_iff, forallb_forall. intros [H1 H2]. constructor; auto.
  intros H. apply H1 in H. rewrite Nat.eqb_refl in H. discriminate.
Qed.

Lemma tovec_all d L i : tovec_fits d L = true -> i < length L -> In i (md_tovec d).
Proof.
  unfold tovec_fits. rewrite !andb_true_iff, Nat.eqb_eq, forallb_forall. intros [[H1 H2] H3] Hi.
  assert (I : incl (md_tovec d) (seq 0 (length L))).
  { intros j Hj. apply in_seq. apply H2, Nat.ltb_lt in Hj. lia. }
  apply (NoDup_length_incl (pairwise_nodup _ H3)) in I; [|rewrite seq_length; lia]. apply I, in_seq. lia.
Qed.

Lemma Forall2_nth_error {A B} (P : A -> B -> Prop) l1 l2 i a : Forall2 P l1 l2 -> nth_error l1 i = Some a -> exists b, nth_error l2 i = Some b /\ P a b.
Proof. intros H. revert i. induction H; intros [|i]; cbn; try discriminate; [intros [= ->]; eauto|apply IHForall2]. Qed.

Lemma Forall2_len {A B} (P : A -> B -> Prop) l1 l2 : Forall2 P l1 l2 -> length l1 = length l2.
Proof. intros H. induction H; cbn; auto. Qed.

Lemma conforms_nth L x i f : conforms L x -> nth_error L i = Some f -> holds f (nth i x []).
Proof. intros H Hf. destruct (Forall2_nth_error _ _ _ _ _ H Hf) as [v [Hv Hh]]. rewrite (nth_error_nth _ _ _ Hv). exact Hh. Qed.

Lemma filter_none {A} (p : A -> bool) l : (forall x, In x l -> p x = false) -> filter p l = [].
Proof. induction l as [|x l IH]; cbn; intros H; [reflexivity|]. rewrite (H x (or_introl eq_refl)). apply IH. intros y Hy. apply H. right; exact Hy. Qed.
Lemma filter_all {A} (p : A -> bool) l : (forall x, In x l -> p x = true) -> filter p l = l.
Proof. induction l as [|x l IH]; cbn; intros H; [reflexivity|]. rewrite (H x (or_introl eq_refl)). f_equal. apply IH. intros y Hy. apply H. right; exact Hy. Qed.
Lemma filter_concat {A} (p : A -> bool) l : filter p (concat l) = concat (map (filter p) l).
Proof. induction l; cbn; [reflexivity|]. rewrite filter_app, IHl. reflexivity. Qed.

Lemma filter_tovec d L x i f : good d L = true -> tovec_fits d L = true -> conforms L x -> nth_error L i = Some f ->
  filter (fits f) (tovec d x) = nth i x [].
Proof.
  intros G T C Hf. unfold tovec. rewrite filter_concat, map_map.
  assert (Hi : In i (md_tovec d)) by (eapply tovec_all; [exact T|apply nth_error_Some; congruence]).
  assert (Hb : forall j, In j (md_tovec d) -> j < length L).
  { unfold tovec_fits in T. rewrite !andb_true_iff, forallb_forall in T. intros j Hj. apply Nat.ltb_lt. apply T. exact Hj. }
  assert (Hd : NoDup (md_tovec d)).
  { unfold tovec_fits in T. rewrite !andb_true_iff in T. apply pairwise_nodup. apply T. }
  assert (Hj : forall j, In j (md_tovec d) -> j <> i -> filter (fits f) (nth j x []) = []).
  { intros j J Hne. destruct (nth_error L j) as [g|] eqn:Hg; [|apply nth_error_None in Hg; apply Hb in J; lia].
    destruct (conforms_nth L x j g C Hg) as (B & _). apply filter_none. intros e He. rewrite Forall_forall in B. specialize (B e He).
    apply fits_belongs in B. destruct (fits f e) eqn:X; auto. exfalso. apply Hne. eapply (fits_unique d L G); [exact Hg|exact Hf|exact B|exact X]. }
  assert (Hs : filter (fits f) (nth i x []) = nth i x []).
  { destruct (conforms_nth L x i f C Hf) as (B & _). apply filter_all. intros e He. rewrite Forall_forall in B. apply fits_belongs. apply B; exact He. }
  clear - Hi Hd Hj Hs. induction (md_tovec d) as [|j l IH]; [contradiction|]. cbn [map concat].
  inversion Hd as [|? ? N1 N2]; subst. destruct (Nat.eq_dec j i) as [->|Hne].
  - rewrite Hs. rewrite (proj2 (concat_nil_Forall _)); [apply app_nil_r|]. apply Forall_map, Forall_forall. intros k Hk.
    apply Hj; [right; exact Hk|]. intros ->. contradiction.
  - rewrite Hj by (auto; left; reflexivity). cbn [app]. apply IH; auto.
    + destruct Hi; [congruence|auto].
    + intros k Hk Hki. apply Hj; auto. right; exact Hk.
Qed.

(* what can be kept: a Vec of which only the first element is kept must not hold more *)
Definition kept_whole (f : field_spec) (v : list ie) : Prop := f_keep f = KeepAll \/ length v <= 1.

Lemma contents_tovec d L x : good d L = true -> tovec_fits d L = true -> init_fits d L = true ->
  conforms L x -> Forall2 kept_whole L x -> contents d L (tovec d x) = x.
Proof.
  intros G T I C K. assert (Hlen : length L = length x) by (eapply Forall2_len; exact C).
  apply nth_ext with (d := []) (d' := []).
  - unfold contents, numbered. rewrite map_length, combine_length, seq_length. lia.
  - intros i Hi. assert (Hi' : i < length L) by (unfold contents, numbered in Hi; rewrite map_length, combine_length, seq_length in Hi; lia). clear Hi.
    destruct (nth_error L i) as [f|] eqn:Hf; [|apply nth_error_None in Hf; lia].
    rewrite (nth_error_nth _ _ _ (contents_nth d L _ i f Hf)), (filter_tovec d L x i f G T C Hf).
    destruct (conforms_nth L x i f C Hf) as (_ & A & _).
    destruct (Forall2_nth_error _ _ _ _ _ K Hf) as [v [Hv Hk]]. rewrite (nth_error_nth _ _ _ Hv) in *.
    assert (X : keeps (f_keep f) v = v).
    { destruct Hk as [Hk|Hk]; [rewrite Hk; reflexivity|]. destruct v as [|e [|e' v]]; cbn in Hk; try lia; destruct (f_keep f); reflexivity. }
    rewrite X. destruct v as [|e v]; [|reflexivity]. cbn [or_else].
    unfold init_fits in I. rewrite forallb_forall in I. specialize (I _ (numbered_in _ _ _ Hf)). cbn [fst snd] in I.
    destruct (f_arity f); [discriminate A| |]; destruct (nth i (md_init d) []); auto; discriminate I.
Qed.

Lemma tovec_not_missing d L x f : tovec_fits d L = true -> conforms L x -> In f L -> ~ missing f (tovec d x).
Proof.
  intros T C Hf [c [Hc Hm]]. apply In_nth_error in Hf. destruct Hf as [i Hf].
  destruct (conforms_nth L x i f C Hf) as (_ & _ & R). specialize (R c Hc). apply Exists_exists in R. destruct R as [e [He Hs]].
  apply (Hm e); [|exact Hs]. unfold tovec. apply in_concat. exists (nth i x []). split; [|exact He].
  apply in_map_iff. exists i. split; auto. eapply tovec_all; [exact T|apply nth_error_Some; congruence].
Qed.

(* ------------------------------------------------------------------------- *)
(* The 83 messages *)

(* "IdentificationResponse" accepts a packet without its mandatory cause *)
Definition unenforced : list string := ["IdentificationResponse"%string].
(* the missing-IE error of these names another IE than a missing one *)
Definition misnamed : list string :=
  ["CreateForwardingTunnelResponse"; "CreateIndirectDataForwardingTunnelResponse"; "ForwardRelocationRequest"; "MbmsSessionStartRequest"]%string.

Definition all_ok (p : message_def * layout) : bool :=
  let (d, L) := p in
  good d L && flags_fit d L && tovec_fits d L && init_fits d L && keys_below d &&
  (final_enforces d || existsb (String.eqb (md_name d)) unenforced) &&
  (final_names d || existsb (String.eqb (md_name d)) misnamed).

Lemma messages_ok : forallb all_ok gtpv2_messages = true.
Proof. vm_compute. reflexivity. Qed.

Section One.
Variables (d : message_def) (L : layout).
Hypothesis H : In (d, L) gtpv2_messages.
Lemma mk_all : all_ok (d, L) = true.
Proof. pose proof messages_ok as M. rewrite forallb_forall in M. exact (M _ H). Qed.
Lemma mk_good : good d L = true.
Proof. pose proof mk_all as M. unfold all_ok in M. rewrite !andb_true_iff in M. apply M. Qed.
Lemma mk_flags : flags_fit d L = true.
Proof. pose proof mk_all as M. unfold all_ok in M. rewrite !andb_true_iff in M. apply M. Qed.
Lemma mk_tovec : tovec_fits d L = true.
Proof. pose proof mk_all as M. unfold all_ok in M. rewrite !andb_true_iff in M. apply M. Qed.
Lemma mk_init : init_fits d L = true.
Proof. pose proof mk_all as M. unfold all_ok in M. rewrite !andb_true_iff in M. apply M. Qed.
Lemma mk_enforces : ~ In (md_name d) unenforced -> final_enforces d = true.
Proof.
  intros U. pose proof mk_all as M. unfold all_ok in M. rewrite !andb_true_iff, !orb_true_iff in M. destruct M as [[_ [M|M]] _]; auto.
  exfalso. apply U. apply existsb_exists in M. destruct M as [s [Hs E]]. apply String.eqb_eq in E. rewrite E. exact Hs.
Qed.
Lemma mk_names : ~ In (md_name d) misnamed -> final_names d = true.
Proof.
  intros U. pose proof mk_all as M. unfold all_ok in M. rewrite !andb_true_iff, !orb_true_iff in M. destruct M as [_ [M|M]]; auto.
  exfalso. apply U. apply existsb_exists in M. destruct M as [s [Hs E]]. apply String.eqb_eq in E. rewrite E. exact Hs.
Qed.
End One.

Lemma irrelevant d L st e : good d L = true -> (forall f, In f L -> ~ belongs f e) -> step d st e = st.
Proof.
  intros G N. unfold step. destruct (find _ _) as [r|] eqn:E; [|reflexivity]. exfalso. apply find_some in E. destruct E as [Hr Hm].
  destruct (arm_field d L G r Hr) as [f [Hf _]]. apply (N f); [eapply nth_error_In; exact Hf|].
  apply fits_belongs. eapply matches_fits; eassumption.
Qed.

Lemma fromvec_irrelevant d L l1 e l2 : good d L = true -> (forall f, In f L -> ~ belongs f e) -> fromvec d (l1 ++ e :: l2) = fromvec d (l1 ++ l2).
Proof.
  intros G N. unfold fromvec. rewrite !fold_left_app. cbn [fold_left]. rewrite (irrelevant d L) by assumption. reflexivity.
Qed.

Lemma fromvec_tovec d L x : In (d, L) gtpv2_messages -> conforms L x -> Forall2 kept_whole L x -> fromvec d (tovec d x) = Ok x.
Proof.
  intros H C K. pose proof (mk_good d L H) as G.
  assert (X : exists y, fromvec d (tovec d x) = Ok y).
  { destruct (existsb (String.eqb (md_name d)) unenforced) eqn:U.
    - assert (D : In (d, L) gtpv2_messages /\ existsb (String.eqb (md_name d)) unenforced = true) by auto.
      assert (Z : forallb (fun p => negb (existsb (String.eqb (md_name (fst p))) unenforced) || is_nil (md_final (fst p))) gtpv2_messages = true) by (vm_compute; reflexivity).
      rewrite forallb_forall in Z. specialize (Z _ H). cbn [fst] in Z. rewrite U in Z. cbn [negb orb] in Z. unfold fromvec.
      destruct (md_final d); [cbn [decide]; eauto|discriminate].
    - assert (U' : ~ In (md_name d) unenforced).
      { intros I. assert (existsb (String.eqb (md_name d)) unenforced = true); [|congruence]. apply existsb_exists. exists (md_name d). split; auto. apply String.eqb_refl. }
      apply (fromvec_ok_iff d L G (mk_flags d L H) (mk_enforces d L H U')). intros f Hf. eapply tovec_not_missing; eauto. apply (mk_tovec d L H). }
  destruct X as [y Hy]. rewrite Hy. f_equal. rewrite (fromvec_contents d L _ y G Hy).
  apply contents_tovec; auto; [apply (mk_tovec d L H)|apply (mk_init d L H)].
Qed.

(* [conforms], decided *)
Definition holdsb (f : field_spec) (v : list ie) : bool :=
  forallb (fits f) v && match f_arity f with One => length v =? 1 | Opt => length v <=? 1 | Many => true end &&
  match f_req f with None => true | Some c => existsb (fun e => kind_eqb (kind_of e) (f_kind f) && ins_test c (ie_instance e)) v end.
Fixpoint conformsb (L : layout) (x : list (list ie)) : bool :=
  match L, x with
  | [], [] => true
  | f :: L, v :: x => holdsb f v && conformsb L x
  | _, _ => false
  end.
Lemma conformsb_ok L x : conformsb L x = true -> conforms L x.
Proof.
  revert x. induction L as [|f L IH]; intros [|v x]; cbn; try discriminate; [constructor|].
  rewrite andb_true_iff. intros [H1 H2]. constructor; [|apply IH; exact H2].
  unfold holdsb in H1. rewrite !andb_true_iff in H1. destruct H1 as [[B A] R]. repeat split.
  - apply Forall_forall. intros e He. apply fits_belongs. rewrite forallb_forall in B. apply B; exact He.
  - destruct (f_arity f); [apply Nat.eqb_eq in A|apply Nat.leb_le in A|]; auto.
  - intros c Hc. rewrite Hc, existsb_exists in R. destruct R as [e [He R]]. rewrite andb_true_iff, kind_eqb_eq, ins_test_in in R.
    apply Exists_exists. exists e. auto.
Qed.
