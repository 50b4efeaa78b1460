(* V1Hang.v - when the decoders of GTPv1 do not come to an end. *)
From Coq Require Import Sorting.Sorted.
From Verif Require Import Base BaseFacts LabelsFacts V1U V1CHdr V1CIe V1CKind V1CMsg V1CTables V1CSpec V1CSafeSpec V1CMsgSpec V1CMsgFacts V1CMsgRead V1CMsgSafety V1CExact V1CHdrSafety V1CIeSafety V1USafety2 V1CrashSpec V1HangSpec V1Crash V1CrashIe V1CrashMsg V1CrashPkt V1CrashEi.
Local Open Scope N_scope.

Lemma bind_diverge {A B} (r : res A) (k : A -> res B) : bind r k = Diverge <-> r = Diverge \/ exists x, r = Ok x /\ k x = Diverge.
Proof.
  destruct r as [x|e| |]; cbn [bind]; split.
  - intros H. right. eauto.
  - intros [H|(y & [= <-] & H)]; [discriminate|exact H].
  - discriminate.
  - intros [H|(y & H & _)]; discriminate.
  - discriminate.
  - intros [H|(y & H & _)]; discriminate.
  - auto.
  - auto.
Qed.
Lemma bind_ok_diverge {A B} (r : res A) (f : A -> B) : bind r (fun x => Ok (f x)) = Diverge <-> r = Diverge.
Proof. rewrite bind_diverge. split; [intros [H|(x & _ & H)]; [exact H|discriminate]|auto]. Qed.
Lemma size_zero l : ext_size l = 0%nat <-> l mod 64 = 0.
Proof. unfold ext_size. replace ((4 * l) mod 256) with (4 * (l mod 64)) by (change 256 with (4 * 64); rewrite N.mul_mod_distr_l by lia; reflexivity). lia. Qed.

Section Chain.
Context {E : Type} (m : mode) (read : list N -> res E) (last : E -> bool) (size : E -> res nat) (need : N -> option nat).
Context (loop : nat -> list N -> nat -> list E -> res (list E)).
Context (loop_O : forall b c d, loop 0 b c d = Diverge).
Context (loop_S : forall f b c d, loop (S f) b c d = let? r := slice_from b c in let? i := read r in
  if last i then Ok d else let? l := size i in loop f b (c + l)%nat (d ++ [i])).
Context (Hp : forall r, read r = Panic <-> ext_overruns need m r).
Context (Hr : forall r, (2 <= length r)%nat -> octet r 0 <> 0 -> octet r 1 <> 0 -> (m = Debug -> octet r 1 < 64) -> (ext_size (octet r 1) <= length r)%nat ->
  read r = Panic \/ exists e, read r = Ok e).
Context (Hs : forall r e, read r = Ok e -> if last e then octet r 0 = 0 else octet r 0 <> 0 /\ sized m r (size e)).
Context (Hd : forall r, read r <> Diverge).
Context (Hn : forall t n, need t = Some n -> (2 <= n <= 5)%nat).

Lemma loop_hangs : forall fuel b c d, (c <= length b)%nat -> (length b < fuel + c)%nat -> loop fuel b c d = Diverge -> chain_hangs need m (skipn c b).
Proof.
  induction fuel as [|fuel IH]; intros b c d Hc Hf H; [lia|]. rewrite loop_S in H.
  rewrite slice_from_ok in H by exact Hc. cbn [bind] in H. apply bind_diverge in H as [H|(e & He & H)]; [contradiction (Hd _ H)|].
  pose proof (Hs _ _ He) as R. destruct (last e); [discriminate|]. destruct R as (R0 & R1 & R2 & R3 & R4 & R5). rewrite R5 in H. cbn [bind] in H.
  destruct (ext_size_cases (octet (skipn c b) 1)) as [Z|Z].
  - assert (Em : m = Release). { destruct m; [|reflexivity]. specialize (R3 eq_refl). apply size_zero in Z. rewrite N.mod_small in Z by exact R3. contradiction. }
    split; [exact Em|]. exists (skipn c b). split; [apply ext_first|]. split; [exact R0|]. split; [exact R2|]. split; [apply size_zero, Z|].
    assert (O : ~ ext_overruns need m (skipn c b)) by (rewrite <- Hp; congruence). destruct (need (octet (skipn c b) 0)) as [n|] eqn:En.
    + exists n. split; [reflexivity|]. destruct (Nat.le_gt_cases n (length (skipn c b))) as [|L]; [assumption|]. exfalso. apply O. right. split; [exact R0|]. right. split; [exact R2|]. right. split; [exact R4|]. rewrite En. exact L.
    + exfalso. apply O. right. split; [exact R0|]. right. split; [exact R2|]. right. split; [exact R4|]. rewrite En. exact Z.
  - pose proof R4 as R4'. rewrite skipn_length in R4'. destruct (IH b (c + ext_size (octet (skipn c b) 1))%nat (d ++ [e]) ltac:(lia) ltac:(lia) H) as (Em & s & S1 & S2).
    split; [exact Em|]. exists s. split; [|exact S2]. apply ext_after; try assumption. rewrite Nat.add_comm, skipn_plus in S1. exact S1.
Qed.
Lemma at_repeats r s : ext_at m r s -> ext_size (octet r 1) = 0%nat -> s = r.
Proof. induction 1 as [r|r s L2 T0 T1 TD Tl Hx IH]; intros Z; [reflexivity|]. rewrite Z in *. cbn [skipn] in *. auto. Qed.
Lemma at_nil r s : ext_at m r s -> r = [] -> s = [].
Proof. induction 1 as [r|r s L2 T0 T1 TD Tl Hx IH]; intros ->; [reflexivity|]. cbn in L2. lia. Qed.
Lemma repeats_loop s : ext_repeats need s -> forall fuel b c d, (c <= length b)%nat -> s = skipn c b -> m = Release -> loop fuel b c d = Diverge.
Proof.
  intros (R0 & R1 & R2 & n & R3 & R4). induction fuel as [|fuel IH]; intros b c d Hc -> Em; [apply loop_O|]. rewrite loop_S, slice_from_ok by exact Hc. cbn [bind].
  pose proof (Hn _ _ R3) as B. assert (Z : ext_size (octet (skipn c b) 1) = 0%nat) by (apply size_zero, R2).
  destruct (Hr (skipn c b)) as [P|[e P]]; [lia|exact R0|exact R1|congruence|lia| |].
  - exfalso. apply Hp in P as [P|(_ & [P|(_ & [[P _]|(_ & P)])])]; [rewrite P in R4; cbn in R4; lia|lia|congruence|]. rewrite R3 in P. lia.
  - rewrite P. cbn [bind]. pose proof (Hs _ _ P) as R. destruct (last e); [contradiction|]. destruct R as (_ & _ & _ & _ & _ & ->). rewrite Z. cbn [bind]. apply IH; [lia|rewrite Nat.add_0_r; reflexivity|exact Em].
Qed.
Lemma hangs_loop r s : ext_at m r s -> ext_repeats need s -> m = Release -> forall b c d fuel, (c <= length b)%nat -> r = skipn c b -> loop fuel b c d = Diverge.
Proof.
  intros H Ho Em. induction H as [r|r s L2 T0 T1 TD Tl Hx IH]; intros b c d fuel Hc ->.
  - eapply repeats_loop; eauto.
  - destruct (ext_size_cases (octet (skipn c b) 1)) as [Z|Z].
    { rewrite Z in Hx, IH. cbn [skipn] in Hx, IH. eapply IH; eauto. }
    destruct fuel as [|fuel]; [apply loop_O|]. rewrite loop_S, slice_from_ok by exact Hc. cbn [bind].
    destruct (Hr (skipn c b) L2 T0 T1 TD Tl) as [Er|[e Er]]; rewrite Er; cbn [bind].
    + exfalso. apply Hp in Er as [P|(_ & [P|(_ & [[P _]|(_ & P)])])]; [rewrite P in L2; cbn in L2; lia|lia|congruence|]. destruct (need (octet (skipn c b) 0)) as [n|] eqn:En; [|lia].
      pose proof (Hn _ _ En). assert (N0 : skipn (ext_size (octet (skipn c b) 1)) (skipn c b) = []) by (apply skipn_all2; lia).
      assert (s = []) by (eapply at_nil; eassumption). subst s. destruct Ho as (Ho & _). apply Ho. reflexivity.
    + pose proof (Hs _ _ Er) as R. destruct (last e) eqn:El; [contradiction|]. destruct R as (_ & _ & _ & _ & R4 & R5). rewrite R5. cbn [bind].
      rewrite skipn_length in Tl. apply (IH Ho); [lia|rewrite (Nat.add_comm c), skipn_plus; reflexivity].
Qed.
Lemma loop_diverge b : loop (S (length b)) b 0 [] = Diverge <-> chain_hangs need m b.
Proof.
  split; [intros H; change b with (skipn 0 b); eapply loop_hangs; [| |exact H]; lia|]. intros (Em & s & H1 & H2). apply (hangs_loop b s H1 H2 Em); [lia|reflexivity].
Qed.
End Chain.

Definition nodiv {A} (r : res A) : Prop := r <> Diverge.
Lemma nodiv_bind {A B} (r : res A) (k : A -> res B) : nodiv r -> (forall x, nodiv (k x)) -> nodiv (bind r k).
Proof. intros H1 H2. destruct r; cbn [bind]; try discriminate; [apply H2|contradiction]. Qed.
Lemma nodiv_at b i : nodiv (@at_ GTPV1Error b i).
Proof. unfold at_. destruct (nth_error b i); discriminate. Qed.
Lemma nodiv_slice b i j : nodiv (@slice GTPV1Error b i j).
Proof. unfold slice. destruct (_ && _)%bool; discriminate. Qed.
Lemma nodiv_checked {A} m r (k : N -> N -> res A) : (forall l s, nodiv (k l s)) -> nodiv (ext_checked m r k).
Proof.
  intros H. unfold ext_checked. apply nodiv_bind; [apply nodiv_at|]. intros l. destruct (_ =? _); [discriminate|]. apply nodiv_bind.
  - unfold mul8, ov. destruct (_ <? _); [discriminate|]. destruct m; discriminate.
  - intros s. destruct (_ <=? _)%nat; [apply H|discriminate].
Qed.
Ltac nodivs := repeat first [apply nodiv_at|apply nodiv_slice|apply nodiv_checked; intros ? ?|apply nodiv_bind; [|intros ?]|discriminate|match goal with |- nodiv (if ?c then _ else _) => destruct c end].
Lemma cext_nodiv m r : cext_unmarshal m r <> Diverge.
Proof. change (nodiv (cext_unmarshal m r)). unfold cext_unmarshal, Num16_unmarshal, Unknown_unmarshal, Blob_unmarshal. nodivs. Qed.
Lemma uext_nodiv m r : ext_unmarshal m r <> Diverge.
Proof. change (nodiv (ext_unmarshal m r)). unfold ext_unmarshal, Num16_unmarshal, Sci_unmarshal, Long_unmarshal, Unknown_unmarshal, Blob_unmarshal. nodivs. Qed.
Lemma need_c_bound t n : need_c t = Some n -> (2 <= n <= 5)%nat.
Proof. unfold need_c. destruct (existsb _ _); [intros [= <-]; lia|discriminate]. Qed.
Lemma need_u_bound t n : need_u t = Some n -> (2 <= n <= 5)%nat.
Proof. unfold need_u. destruct (existsb _ _); [intros [= <-]; lia|]. destruct (existsb _ _); [intros [= <-]; lia|]. destruct (_ =? _); [intros [= <-]; lia|discriminate]. Qed.
Theorem c_ext_diverge m b : c_unmarshal_ext m b = Diverge <-> chain_hangs need_c m b.
Proof.
  apply (loop_diverge m (cext_unmarshal m) is_last (cext_len m) need_c (cext_loop m)).
  - reflexivity.
  - intros f c d e. cbn [cext_loop]. destruct (slice_from c d) as [r| | |]; cbn [bind]; try reflexivity. destruct (cext_unmarshal m r) as [i| | |]; cbn [bind]; try reflexivity. destruct i; reflexivity.
  - apply cext_panic.
  - apply cext_no_err.
  - apply cext_sizes.
  - apply cext_nodiv.
  - apply need_c_bound.
Qed.
Theorem u_ext_diverge m b : unmarshal_ext_hdr m b = Diverge <-> chain_hangs need_u m b.
Proof.
  apply (loop_diverge m (ext_unmarshal m) is_last_u (ext_len m) need_u (ext_loop m)).
  - reflexivity.
  - intros f c d e. cbn [ext_loop]. destruct (slice_from c d) as [r| | |]; cbn [bind]; try reflexivity. destruct (ext_unmarshal m r) as [i| | |]; cbn [bind]; try reflexivity. destruct i; reflexivity.
  - apply uext_panic.
  - apply uext_no_err.
  - apply uext_sizes.
  - apply uext_nodiv.
  - apply need_u_bound.
Qed.

Theorem chdr_diverge m b : chdr_unmarshal m b = Diverge <-> header_c_hangs m b.
Proof.
  unfold header_c_hangs. unfold chdr_unmarshal. destruct (Nat.ltb_spec (length b) 8) as [H|H]; [split; [discriminate|intros [? _]; lia]|].
  rewrite !at_octet. destruct (Nat.ltb_spec 0 (length b)); [|lia]. cbn [bind].
  destruct ((N.shiftr (octet b 0) 5 =? 1) && (N.land (N.shiftr (octet b 0) 4) 1 =? 1))%bool eqn:V.
  2:{ split; [discriminate|]. intros (_ & K & _). apply version_iff in K. congruence. }
  apply version_iff in V.
  destruct (Nat.ltb_spec 1 (length b)); [|lia]. destruct (Nat.ltb_spec 2 (length b)); [|lia]. destruct (Nat.ltb_spec 3 (length b)); [|lia].
  destruct (Nat.ltb_spec 4 (length b)); [|lia]. destruct (Nat.ltb_spec 5 (length b)); [|lia]. destruct (Nat.ltb_spec 6 (length b)); [|lia]. destruct (Nat.ltb_spec 7 (length b)); [|lia].
  cbn [bind]. cbv zeta. destruct (N.eqb_spec (N.land (octet b 0) 7) 0) as [Z|Z].
  { split; [discriminate|]. intros (_ & _ & K & _). apply land7_0 in Z. congruence. }
  rewrite (slice_from_ok b 8) by lia. cbn [bind]. rewrite !skipn_length. rewrite !flag_land, flag_land0.
  assert (F1 : forall b : bool, ((if b then 1 else 0) =? 1) = b) by (intros [|]; reflexivity).
  rewrite !F1. destruct (Nat.ltb_spec (length b - 8) 4) as [L|L].
  - split; [|intros (? & _); lia]. intros P. exfalso. revert P.
    destruct (N.testbit (octet b 0) 1), (N.testbit (octet b 0) 0), (N.testbit (octet b 0) 2);
    repeat match goal with |- context [(?x <? ?y)%nat] => destruct (Nat.ltb_spec x y); try lia; cbn [bind] end; discriminate.
  - rewrite (slice_from_ok b 11) by lia.
    destruct (Nat.ltb_spec (length b - 8) 2); [lia|]. destruct (Nat.ltb_spec (length b - 8) 3); [lia|].
    destruct (Nat.ltb_spec 8 (length b)); [|lia]. destruct (Nat.ltb_spec 9 (length b)); [|lia]. destruct (Nat.ltb_spec 10 (length b)); [|lia].
    cbn [bind]. replace (if N.testbit (octet b 0) 1 then _ else _) with (Ok (E:=GTPV1Error) (if N.testbit (octet b 0) 1 then Some (be16 (octet b 8) (octet b 9)) else None)) by (destruct (N.testbit (octet b 0) 1); reflexivity).
    replace (if N.testbit (octet b 0) 0 then _ else _) with (Ok (E:=GTPV1Error) (if N.testbit (octet b 0) 0 then Some (octet b 10) else None)) by (destruct (N.testbit (octet b 0) 0); reflexivity).
    cbn [bind]. rewrite bind_ok_diverge. destruct (N.testbit (octet b 0) 2).
    + rewrite bind_ok_diverge, c_ext_diverge. intuition lia.
    + split; [discriminate|intros (_ & _ & K & _); discriminate].
Qed.
Lemma optional_diverge m b mt len td np ext : (8 <= length b)%nat ->
  (hdr_optional m b mt len td np ext = Diverge <-> (12 <= length b)%nat /\ ext = true /\ chain_hangs need_u m (skipn 11 b)).
Proof.
  intros H. unfold hdr_optional. rewrite (slice_from_ok b 8) by lia. cbn [bind]. rewrite skipn_length. destruct (Nat.leb_spec 4 (length b - 8)) as [L|L]; [|split; [discriminate|intros [? _]; lia]].
  rewrite !at_octet. destruct (Nat.ltb_spec 8 (length b)); [|lia]. destruct (Nat.ltb_spec 9 (length b)); [|lia]. destruct (Nat.ltb_spec 10 (length b)); [|lia]. cbn [bind].
  replace (if np then Ok (Some (octet b 10)) else Ok None) with (Ok (E:=GTPV1Error) (if np then Some (octet b 10) else None)) by (destruct np; reflexivity). cbn [bind].
  destruct ext; [|split; [discriminate|intros (_ & ? & _); discriminate]]. rewrite (slice_from_ok b 11) by lia. cbn [bind]. rewrite bind_ok_diverge, u_ext_diverge. intuition lia.
Qed.
Theorem hdr_diverge m b : hdr_unmarshal m b = Diverge <-> header_u_hangs m b.
Proof.
  unfold header_u_hangs, hdr_unmarshal. destruct (Nat.leb_spec 8 (length b)) as [H|H]; [|split; [discriminate|intros [? _]; lia]].
  rewrite !at_octet. destruct (Nat.ltb_spec 0 (length b)); [|lia]. cbn [bind].
  destruct ((N.shiftr (octet b 0) 5 =? 1) && (N.shiftr (N.land (octet b 0) 16) 4 =? 1))%bool eqn:V.
  2:{ split; [discriminate|]. intros (_ & K & _). apply version_u_iff in K. congruence. }
  apply version_u_iff in V.
  destruct (Nat.ltb_spec 1 (length b)); [|lia]. destruct (Nat.ltb_spec 2 (length b)); [|lia]. destruct (Nat.ltb_spec 3 (length b)); [|lia].
  destruct (Nat.ltb_spec 4 (length b)); [|lia]. destruct (Nat.ltb_spec 5 (length b)); [|lia]. destruct (Nat.ltb_spec 6 (length b)); [|lia]. destruct (Nat.ltb_spec 7 (length b)); [|lia].
  cbn [bind]. rewrite be16_eq. destruct (N.eqb_spec (256 * octet b 2 + octet b 3) 0) as [Z|Z]; [split; [discriminate|intros (_ & _ & K & _); contradiction]|].
  rewrite flags_eq. destruct (N.testbit (octet b 0) 1); [|destruct (N.testbit (octet b 0) 0), (N.testbit (octet b 0) 2); cbn [orb]]; rewrite ?optional_diverge by exact H; intuition congruence.
Qed.
