(* V1Crash.v - when the decoders of GTPv1 panic, compared with V1CrashSpec.v: extension headers, headers, elements. *)
From Coq Require Import Sorting.Sorted.
From Verif Require Import Base BaseFacts LabelsFacts V1U V1CHdr V1CSafeSpec V1CMsgSpec V1CHdrSafety V1CIeSafety V1CrashSpec.
Local Open Scope N_scope.

Lemma bind_panic {A B} (r : res A) (k : A -> res B) : bind r k = Panic <-> r = Panic \/ exists x, r = Ok x /\ k x = Panic.
Proof.
  destruct r as [x|e| |]; cbn [bind]; split.
  - intros H. right. eauto.
  - intros [H|(y & [= <-] & H)]; [discriminate|exact H].
  - discriminate.
  - intros [H|(y & H & _)]; discriminate.
  - auto.
  - auto.
  - discriminate.
  - intros [H|(y & H & _)]; discriminate.
Qed.
Lemma bind_ok_panic {A B} (r : res A) (f : A -> B) : bind r (fun x => Ok (f x)) = Panic <-> r = Panic.
Proof. rewrite bind_panic. split; [intros [H|(x & _ & H)]; [exact H|discriminate]|auto]. Qed.
Lemma at_octet (b : list N) i : @at_ GTPV1Error b i = if (i <? length b)%nat then Ok (octet b i) else Panic.
Proof.
  unfold at_, octet. destruct (Nat.ltb_spec i (length b)) as [H|H].
  - rewrite (nth_error_nth' b 0 H). reflexivity.
  - apply nth_error_None in H. rewrite H. reflexivity.
Qed.
Lemma slice_panic (b : list N) i j : @slice GTPV1Error b i j = Panic <-> ~ (i <= j <= length b)%nat.
Proof. unfold slice. destruct (Nat.leb_spec i j), (Nat.leb_spec j (length b)); cbn [andb]; split; intros; try discriminate; try reflexivity; lia. Qed.

(* ------------------------------------------------------------------------- *)
(* Extension headers *)
Lemma mul8_size m l : @mul8 GTPV1Error m l 4 = if (l <? 64) then Ok (N.of_nat (ext_size l)) else match m with Debug => Panic | Release => Ok (N.of_nat (ext_size l)) end.
Proof.
  unfold mul8, ov, ext_size. rewrite N2Nat.id. destruct (N.ltb_spec l 64) as [H|H], (N.ltb_spec (l * 4) 256) as [K|K]; try lia.
  - rewrite N.mod_small by lia. f_equal. lia.
  - destruct m; [reflexivity|]. f_equal. f_equal. lia.
Qed.
(* the checks shared by all extension headers *)
Lemma checked_panic {A} m r (k : N -> N -> res A) : r <> [] ->
  (ext_checked m r k = Panic <-> length r = 1%nat \/ (octet r 1 <> 0 /\ ((m = Debug /\ 64 <= octet r 1) \/
    ((m = Debug -> octet r 1 < 64) /\ (ext_size (octet r 1) <= length r)%nat /\ k (octet r 1) (N.of_nat (ext_size (octet r 1))) = Panic)))).
Proof.
  intros Hr. unfold ext_checked. rewrite at_octet. assert (Hl : (1 <= length r)%nat) by (destruct r; [contradiction|cbn; lia]).
  destruct (Nat.ltb_spec 1 (length r)) as [H|H]; cbn [bind].
  2:{ split; [intros _; left; lia|reflexivity]. }
  destruct (N.eqb_spec (octet r 1) 0) as [E|E]; [split; [discriminate|intros [?|[? _]]; [lia|contradiction]]|].
  rewrite mul8_size. destruct (N.ltb_spec (octet r 1) 64) as [K|K].
  - cbn [bind]. rewrite Nat2N.id. destruct (Nat.leb_spec (ext_size (octet r 1)) (length r)) as [L|L].
    + split; [intros P; right; split; [exact E|right; auto]|intros [?|[_ [[_ ?]|[_ [_ P]]]]]; [lia|lia|exact P]].
    + split; [discriminate|intros [?|[_ [[_ ?]|[_ [? _]]]]]; lia].
  - destruct m; cbn [bind].
    + split; [intros _; right; split; [exact E|left; auto]|reflexivity].
    + rewrite Nat2N.id. destruct (Nat.leb_spec (ext_size (octet r 1)) (length r)) as [L|L].
      * split; [intros P; right; split; [exact E|right; split; [discriminate|auto]]|intros [?|[_ [[? _]|[_ [_ P]]]]]; [lia|discriminate|exact P]].
      * split; [discriminate|intros [?|[_ [[? _]|[_ [? _]]]]]; [lia|discriminate|lia]].
Qed.
Lemma checked_ok {A} m r (k : N -> N -> res A) x : ext_checked m r k = Ok x ->
  (2 <= length r)%nat /\ octet r 1 <> 0 /\ (m = Debug -> octet r 1 < 64) /\ (ext_size (octet r 1) <= length r)%nat /\
  k (octet r 1) (N.of_nat (ext_size (octet r 1))) = Ok x.
Proof.
  unfold ext_checked. rewrite at_octet. destruct (Nat.ltb_spec 1 (length r)) as [H|H]; [|discriminate]. cbn [bind].
  destruct (N.eqb_spec (octet r 1) 0) as [E|E]; [discriminate|]. rewrite mul8_size.
  destruct (N.ltb_spec (octet r 1) 64) as [K|K].
  - cbn [bind]. rewrite Nat2N.id. destruct (Nat.leb_spec (ext_size (octet r 1)) (length r)); [|discriminate]. auto.
  - destruct m; [discriminate|]. cbn [bind]. rewrite Nat2N.id. destruct (Nat.leb_spec (ext_size (octet r 1)) (length r)); [|discriminate]. split; [lia|]. split; [exact E|]. split; [discriminate|auto].
Qed.
Lemma ext_size_cases l : ext_size l = 0%nat \/ (4 <= ext_size l)%nat.
Proof.
  unfold ext_size. replace ((4 * l) mod 256) with (4 * (l mod 64)) by (change 256 with (4 * 64); rewrite N.mul_mod_distr_l by lia; reflexivity).
  destruct (N.eq_dec (l mod 64) 0) as [E|E]; [left; rewrite E; reflexivity|right; lia].
Qed.

Lemma octet_0 t r : octet (t :: r) 0 = t. Proof. reflexivity. Qed.
(* the contents *)
Lemma contents_panic {A} m r (k : N -> N -> res A) need : r <> [] -> octet r 0 <> 0 ->
  (k (octet r 1) (N.of_nat (ext_size (octet r 1))) = Panic <->
   match need (octet r 0) with Some n => (length r < n)%nat | None => ~ (2 <= ext_size (octet r 1) <= length r)%nat end) ->
  (ext_checked m r k = Panic <-> ext_overruns need m r).
Proof.
  intros Hr Ht Hk. rewrite checked_panic by exact Hr. rewrite Hk. unfold ext_overruns. pose proof (ext_size_cases (octet r 1)) as C.
  split.
  - intros [H|(H & [D|(D & L & H1)])]; right; (split; [exact Ht|]); [left; exact H|right; split; [exact H|left; exact D]|].
    right. split; [exact H|]. right. split; [exact L|]. destruct (need (octet r 0)); [exact H1|lia].
  - intros [H|(_ & [H|(H & [D|(L & H1)])])]; [contradiction|left; exact H|right; split; [exact H|left; exact D]|].
    right. split; [exact H|]. destruct m; [destruct (N.ltb_spec (octet r 1) 64) as [K|K]; [right|left; auto]|right].
    + split; [auto|]. split; [exact L|]. destruct (need (octet r 0)); [exact H1|lia].
    + split; [discriminate|]. split; [exact L|]. destruct (need (octet r 0)); [exact H1|lia].
Qed.
Ltac at_cases := rewrite !at_octet; repeat (match goal with |- context [(?i <? length ?r)%nat] => destruct (Nat.ltb_spec i (length r)) end; cbn [bind]); split; intros; try discriminate; try reflexivity; lia.
Lemma num16_panic t m r need : r <> [] -> octet r 0 <> 0 -> need (octet r 0) = Some 4%nat -> (Num16_unmarshal t m r = Panic <-> ext_overruns need m r).
Proof. intros Hr Ht Hn. apply contents_panic; [exact Hr|exact Ht|]. rewrite Hn. at_cases. Qed.
Lemma sci_panic m r need : r <> [] -> octet r 0 <> 0 -> need (octet r 0) = Some 3%nat -> (Sci_unmarshal m r = Panic <-> ext_overruns need m r).
Proof. intros Hr Ht Hn. apply contents_panic; [exact Hr|exact Ht|]. rewrite Hn. at_cases. Qed.
Lemma long_panic m r need : r <> [] -> octet r 0 = 3 \/ octet r 0 = 130 -> need (octet r 0) = Some 5%nat -> (Long_unmarshal m r = Panic <-> ext_overruns need m r).
Proof.
  intros Hr Ht Hn. unfold Long_unmarshal. rewrite at_octet. destruct (Nat.ltb_spec 0 (length r)) as [H|H]; [|destruct r; [contradiction|cbn in H; lia]]. cbn [bind].
  replace (_ || _)%bool with true by (destruct Ht as [-> | ->]; reflexivity).
  apply contents_panic; [exact Hr|lia|]. rewrite Hn. at_cases.
Qed.
Lemma blob_panic t m r need : r <> [] -> octet r 0 <> 0 -> need (octet r 0) = None -> (Blob_unmarshal t m r = Panic <-> ext_overruns need m r).
Proof.
  intros Hr Ht Hn. apply contents_panic; [exact Hr|exact Ht|]. rewrite Hn. rewrite bind_ok_panic, Nat2N.id. apply slice_panic.
Qed.
Lemma unknown_panic m r need : r <> [] -> octet r 0 <> 0 -> need (octet r 0) = None -> (Unknown_unmarshal m r = Panic <-> ext_overruns need m r).
Proof.
  intros Hr Ht Hn. unfold Unknown_unmarshal. rewrite at_octet. destruct (Nat.ltb_spec 0 (length r)) as [H|H]; [|destruct r; [contradiction|cbn in H; lia]]. cbn [bind].
  apply blob_panic; assumption.
Qed.
(* what is read has the size the chain goes on by *)
Definition sized (m : mode) (r : list N) (n : res nat) : Prop :=
  (2 <= length r)%nat /\ octet r 1 <> 0 /\ (m = Debug -> octet r 1 < 64) /\ (ext_size (octet r 1) <= length r)%nat /\ n = Ok (ext_size (octet r 1)).
Lemma ext_len_sized m l : (m = Debug -> l < 64) -> ext_len_of m l = Ok (ext_size l).
Proof.
  intros H. unfold ext_len_of. rewrite mul8_size. destruct (N.ltb_spec l 64) as [K|K]; [|destruct m; [specialize (H eq_refl); lia|]]; cbn [bind]; rewrite Nat2N.id; reflexivity.
Qed.
Lemma checked_sized {A} m r (k : N -> N -> res A) x (len : A -> N) : ext_checked m r k = Ok x -> (forall l s y, k l s = Ok y -> len y = l) -> sized m r (ext_len_of m (len x)).
Proof.
  intros H Hl. apply checked_ok in H as (H1 & H2 & H3 & H4 & H5). apply Hl in H5. rewrite H5. repeat split; auto. apply ext_len_sized, H3.
Qed.
Ltac by_binds := let H := fresh in intros ? ? ? H; repeat (apply bind_ok in H as (? & _ & H)); injection H as <-; reflexivity.
Lemma num16_sized t m r x : Num16_unmarshal t m r = Ok x -> sized m r (ext_len_of m (ne_length x)).
Proof. intros H. apply (checked_sized _ _ _ _ ne_length H). by_binds. Qed.
Lemma sci_sized m r x : Sci_unmarshal m r = Ok x -> sized m r (ext_len_of m (ne_length x)).
Proof. intros H. apply (checked_sized _ _ _ _ ne_length H). by_binds. Qed.
Lemma long_sized m r x : Long_unmarshal m r = Ok x -> sized m r (ext_len_of m (ne_length x)).
Proof.
  intros H. unfold Long_unmarshal in H. apply bind_ok in H as (t & _ & H). destruct (_ || _); [|discriminate].
  apply (checked_sized _ _ _ _ ne_length H). by_binds.
Qed.
Lemma blob_sized t m r x : Blob_unmarshal t m r = Ok x -> sized m r (ext_len_of m (be_length x)).
Proof. intros H. apply (checked_sized _ _ _ _ be_length H). by_binds. Qed.
Lemma unknown_sized m r x : Unknown_unmarshal m r = Ok x -> sized m r (ext_len_of m (be_length x)).
Proof. intros H. unfold Unknown_unmarshal in H. apply bind_ok in H as (t & _ & H). exact (blob_sized _ _ _ _ H). Qed.

(* The loop over a chain, of GTPv1-C and of GTP-U *)
Section Chain.
Context {E : Type} (m : mode) (read : list N -> res E) (last : E -> bool) (size : E -> res nat) (need : N -> option nat).
Context (loop : nat -> list N -> nat -> list E -> res (list E)).
Context (loop_O : forall b c d, loop 0 b c d = Diverge).
Context (loop_S : forall f b c d, loop (S f) b c d = let? r := slice_from b c in let? i := read r in
  if last i then Ok d else let? l := size i in loop f b (c + l)%nat (d ++ [i])).
Context (Hp : forall r, read r = Panic <-> ext_overruns need m r).
Context (Hr : forall r, (2 <= length r)%nat -> octet r 0 <> 0 -> octet r 1 <> 0 -> (m = Debug -> octet r 1 < 64) -> (ext_size (octet r 1) <= length r)%nat ->
  read r = Panic \/ exists e, read r = Ok e).
Context (Hs : forall r e, read r = Ok e -> if last e then octet r 0 = 0 else octet r 0 <> 0 /\ sized m r (size e)).

Lemma loop_crashes : forall fuel b c d, (c <= length b)%nat -> loop fuel b c d = Panic -> chain_crashes need m (skipn c b).
Proof.
  induction fuel as [|fuel IH]; intros b c d Hc H; [rewrite loop_O in H; discriminate|]. rewrite loop_S in H.
  rewrite slice_from_ok in H by exact Hc. cbn [bind] in H. apply bind_panic in H as [H|(e & He & H)].
  - exists (skipn c b). split; [constructor|]. apply Hp, H.
  - pose proof (Hs _ _ He) as R. destruct (last e); [discriminate|]. destruct R as (R0 & R1 & R2 & R3 & R4 & R5). rewrite R5 in H. cbn [bind] in H.
    rewrite skipn_length in R4.
    destruct (IH b (c + ext_size (octet (skipn c b) 1))%nat (d ++ [e]) ltac:(lia) H) as (s & S1 & S2).
    exists s. split; [|exact S2]. apply ext_after; try assumption; [rewrite skipn_length; lia|]. rewrite Nat.add_comm, skipn_plus in S1. exact S1.
Qed.
Lemma crashes_loop r s : ext_at m r s -> ext_overruns need m s -> forall b c d fuel, (c <= length b)%nat -> r = skipn c b -> (length r < fuel)%nat ->
  loop fuel b c d = Panic.
Proof.
  intros H Ho. induction H as [r|r s L2 T0 T1 TD Tl Hn IH]; intros b c d fuel Hc -> Hf; (destruct fuel as [|fuel]; [lia|]).
  - rewrite loop_S, slice_from_ok by exact Hc. cbn [bind]. apply Hp in Ho. rewrite Ho. reflexivity.
  - destruct (ext_size_cases (octet (skipn c b) 1)) as [Z|Z].
    { apply (IH Ho b c d (S fuel) Hc); [rewrite Z; reflexivity|]. rewrite Z. exact Hf. }
    rewrite loop_S, slice_from_ok by exact Hc. cbn [bind].
    destruct (Hr (skipn c b) L2 T0 T1 TD Tl) as [Er|[e Er]]; rewrite Er; cbn [bind]; [reflexivity|].
    pose proof (Hs _ _ Er) as R. destruct (last e) eqn:El; [contradiction|]. destruct R as (_ & _ & _ & _ & R4 & R5). rewrite R5. cbn [bind].
    rewrite skipn_length in Tl, Hf. apply (IH Ho); [lia|rewrite (Nat.add_comm c), skipn_plus; reflexivity|]. rewrite !skipn_length. lia.
Qed.
Lemma loop_panic b : loop (S (length b)) b 0 [] = Panic <-> chain_crashes need m b.
Proof.
  split; [apply (loop_crashes (S (length b)) b 0 []); lia|]. intros (s & H1 & H2). apply (crashes_loop b s H1 H2); [lia|reflexivity|lia].
Qed.
(* what the loop returns has sizes *)
Lemma loop_sizes : forall fuel b c d l, loop fuel b c d = Ok l -> (forall e, In e d -> exists n, size e = Ok n) -> forall e, In e l -> exists n, size e = Ok n.
Proof.
  induction fuel as [|fuel IH]; intros b c d l H Hd; [rewrite loop_O in H; discriminate|]. rewrite loop_S in H.
  apply bind_ok in H as (r & _ & H). apply bind_ok in H as (i & Hi & H). pose proof (Hs _ _ Hi) as R. destruct (last i).
  - injection H as <-. exact Hd.
  - destruct R as (_ & _ & _ & _ & _ & R5). rewrite R5 in H. cbn [bind] in H. refine (IH _ _ _ _ H _). intros e He. apply in_app_iff in He as [He|[<-|[]]]; eauto.
Qed.
End Chain.

Lemma checked_eq {A} m r (k : N -> N -> res A) : (2 <= length r)%nat -> octet r 1 <> 0 -> (m = Debug -> octet r 1 < 64) -> (ext_size (octet r 1) <= length r)%nat ->
  ext_checked m r k = k (octet r 1) (N.of_nat (ext_size (octet r 1))).
Proof.
  intros H1 H2 H3 H4. unfold ext_checked. rewrite at_octet. destruct (Nat.ltb_spec 1 (length r)); [|lia]. cbn [bind].
  destruct (N.eqb_spec (octet r 1) 0); [contradiction|]. rewrite mul8_size.
  destruct (N.ltb_spec (octet r 1) 64) as [K|K]; [|destruct m; [specialize (H3 eq_refl); lia|]]; cbn [bind]; rewrite Nat2N.id; (destruct (Nat.leb_spec (ext_size (octet r 1)) (length r)); [reflexivity|lia]).
Qed.
Definition no_err {A} (r : res A) : Prop := r = Panic \/ exists x, r = Ok x.
Lemma no_err_bind {A B} (r : res A) (k : A -> res B) : no_err r -> (forall x, no_err (k x)) -> no_err (bind r k).
Proof. intros [->|[x ->]] H; [left; reflexivity|apply H]. Qed.
Lemma no_err_at b i : no_err (@at_ GTPV1Error b i).
Proof. rewrite at_octet. destruct (_ <? _)%nat; [right; eauto|left; reflexivity]. Qed.
Lemma no_err_slice b i j : no_err (@slice GTPV1Error b i j).
Proof. unfold slice. destruct (_ && _)%bool; [right; eauto|left; reflexivity]. Qed.
Lemma no_err_ok {A} (x : A) : no_err (Ok x).
Proof. right. eauto. Qed.
Ltac no_errs := repeat first [apply no_err_at|apply no_err_slice|apply no_err_ok|apply no_err_bind; [|intros ?]].

(* GTPv1-C *)
Definition is_last (e : CExt) : bool := match e with CX_NoMore => true | _ => false end.
Lemma need_c_none t : ~ In t [192; 193; 194; 1; 2] -> need_c t = None.
Proof.
  intros H. unfold need_c. destruct (existsb (N.eqb t) [192; 193; 194; 1; 2]) eqn:X; [|reflexivity]. apply existsb_exists in X as (u & U1 & U2).
  apply N.eqb_eq in U2. subst u. contradiction.
Qed.
Ltac codes t := repeat match goal with |- context [if t =? ?c then _ else _] => destruct (N.eqb_spec t c) as [?|?] end.
Lemma cext_panic m r : cext_unmarshal m r = Panic <-> ext_overruns need_c m r.
Proof.
  destruct (list_eq_dec N.eq_dec r []) as [->|Hr]; [split; [intros _; left; reflexivity|reflexivity]|].
  unfold cext_unmarshal. rewrite at_octet. destruct (Nat.ltb_spec 0 (length r)) as [Hl|Hl]; [|destruct r; [contradiction|cbn in Hl; lia]]. cbn [bind].
  destruct (N.eqb_spec (octet r 0) NO_MORE_EXTENSION_HEADERS) as [E|E].
  { split; [discriminate|]. intros [?|[? _]]; contradiction. }
  codes (octet r 0); rewrite bind_ok_panic;
    try (apply num16_panic; [exact Hr|exact E|match goal with K : octet r 0 = _ |- _ => rewrite K end; reflexivity]).
  apply unknown_panic; [exact Hr|exact E|]. apply need_c_none. cbn [In]. unfold C_PDCP_PDU_NUMBER, C_SUSPEND_REQUEST, C_SUSPEND_RESPONSE, C_MBMS_SUPPORT_INDICATION, C_MS_INFO_CHANGE_REPORTING in *. intuition congruence.
Qed.
Lemma cext_no_err m r : (2 <= length r)%nat -> octet r 0 <> 0 -> octet r 1 <> 0 -> (m = Debug -> octet r 1 < 64) -> (ext_size (octet r 1) <= length r)%nat ->
  cext_unmarshal m r = Panic \/ exists e, cext_unmarshal m r = Ok e.
Proof.
  intros H1 H0 H2 H3 H4. change (no_err (cext_unmarshal m r)). unfold cext_unmarshal. apply no_err_bind; [apply no_err_at|]. intros t.
  destruct (t =? _); [apply no_err_ok|]. unfold Unknown_unmarshal, Num16_unmarshal, Blob_unmarshal.
  codes t; apply no_err_bind; try (intros ?; apply no_err_ok); repeat match goal with |- no_err (bind (at_ _ _) _) => apply no_err_bind; [apply no_err_at|intros ?] end; rewrite checked_eq by assumption; no_errs.
Qed.
Lemma cext_sizes m r e : cext_unmarshal m r = Ok e -> if is_last e then octet r 0 = 0 else octet r 0 <> 0 /\ sized m r (cext_len m e).
Proof.
  intros H. unfold cext_unmarshal in H. rewrite at_octet in H. destruct (_ <? _)%nat; [|discriminate]. cbn [bind] in H.
  destruct (N.eqb_spec (octet r 0) NO_MORE_EXTENSION_HEADERS) as [E|E]; [injection H as <-; exact E|].
  repeat match type of H with context [if octet r 0 =? ?c then _ else _] => destruct (N.eqb_spec (octet r 0) c) as [?|?] end;
    apply bind_ok in H as (x & Hx & H); injection H as <-; cbn [is_last cext_len]; (split; [exact E|]); first [exact (num16_sized _ _ _ _ Hx)|exact (unknown_sized _ _ _ Hx)].
Qed.
Theorem c_ext_panic m b : c_unmarshal_ext m b = Panic <-> chain_crashes need_c m b.
Proof.
  apply (loop_panic m (cext_unmarshal m) is_last (cext_len m) need_c (cext_loop m)).
  - reflexivity.
  - intros f c d e. cbn [cext_loop]. destruct (slice_from c d) as [r| | |]; cbn [bind]; try reflexivity. destruct (cext_unmarshal m r) as [i| | |]; cbn [bind]; try reflexivity. destruct i; reflexivity.
  - apply cext_panic.
  - apply cext_no_err.
  - apply cext_sizes.
Qed.
Lemma c_ext_sum m b l : c_unmarshal_ext m b = Ok l -> exists n, cext_len_sum m l = Ok n.
Proof.
  intros H. assert (K : forall e, In e l -> exists n, cext_len m e = Ok n).
  { apply (loop_sizes m (cext_unmarshal m) is_last (cext_len m) (cext_loop m)) with (4 := H).
    - reflexivity.
    - intros f c d e. cbn [cext_loop]. destruct (slice_from c d) as [r| | |]; cbn [bind]; try reflexivity. destruct (cext_unmarshal m r) as [i| | |]; cbn [bind]; try reflexivity. destruct i; reflexivity.
    - apply cext_sizes.
    - intros e []. }
  clear H. induction l as [|e l IH]; [exists 0%nat; reflexivity|]. cbn [cext_len_sum]. destruct (K e (or_introl eq_refl)) as [n ->]. destruct IH as [k ->]; [intros; apply K; right; assumption|]. eexists. reflexivity.
Qed.
Lemma version_iff b0 : ((N.shiftr b0 5 =? 1) && (N.land (N.shiftr b0 4) 1 =? 1))%bool = true <-> b0 / 16 = 3.
Proof.
  rewrite !N.shiftr_div_pow2. change (2 ^ 5) with 32. change (2 ^ 4) with 16. change 1 with (N.ones 1) at 2. rewrite N.land_ones. change (2 ^ 1) with 2.
  rewrite andb_true_iff, !N.eqb_eq. replace (b0 / 32) with (b0 / 16 / 2) by (rewrite N.div_div by lia; reflexivity). pose proof (N.div_mod (b0 / 16) 2 ltac:(lia)). split; [intros [H1 H2]; lia|].
  intros ->. split; reflexivity.
Qed.
Lemma flag_land b0 n : N.land (N.shiftr b0 n) 1 = if N.testbit b0 n then 1 else 0.
Proof. rewrite (N.land_ones _ 1). change (2 ^ 1) with 2. rewrite <- N.bit0_mod, N.shiftr_spec by lia. rewrite N.add_0_l. destruct (N.testbit b0 n); reflexivity. Qed.
Lemma flag_land0 b0 : N.land b0 1 = if N.testbit b0 0 then 1 else 0.
Proof. rewrite <- flag_land, N.shiftr_0_r. reflexivity. Qed.
Lemma land7_0 b0 : N.land b0 7 = 0 -> N.testbit b0 2 = false.
Proof. intros H. assert (K : N.testbit (N.land b0 7) 2 = false) by (rewrite H; reflexivity). rewrite N.land_spec, andb_true_r in K. exact K. Qed.

Theorem chdr_panic m b : chdr_unmarshal m b = Panic <-> header_c_crashes m b.
Proof.
  unfold header_c_crashes. unfold chdr_unmarshal. destruct (Nat.ltb_spec (length b) 8) as [H|H]; [split; [discriminate|intros [? _]; lia]|].
  rewrite !at_octet. destruct (Nat.ltb_spec 0 (length b)); [|lia]. cbn [bind].
  destruct ((N.shiftr (octet b 0) 5 =? 1) && (N.land (N.shiftr (octet b 0) 4) 1 =? 1))%bool eqn:V.
  2:{ split; [discriminate|]. intros (_ & K & _). apply version_iff in K. congruence. }
  apply version_iff in V.
  destruct (Nat.ltb_spec 1 (length b)); [|lia]. destruct (Nat.ltb_spec 2 (length b)); [|lia]. destruct (Nat.ltb_spec 3 (length b)); [|lia].
  destruct (Nat.ltb_spec 4 (length b)); [|lia]. destruct (Nat.ltb_spec 5 (length b)); [|lia]. destruct (Nat.ltb_spec 6 (length b)); [|lia]. destruct (Nat.ltb_spec 7 (length b)); [|lia].
  cbn [bind]. cbv zeta. destruct (N.eqb_spec (N.land (octet b 0) 7) 0) as [Z|Z].
  { split; [discriminate|]. intros (_ & _ & K & _). apply land7_0 in Z. congruence. }
  rewrite (slice_from_ok b 8) by lia. cbn [bind]. rewrite !skipn_length. rewrite !flag_land, flag_land0.
  assert (F1 : forall b : bool, ((if b then 1 else 0) =? 1) = b) by (intros [|]; reflexivity).
  rewrite !F1. destruct (Nat.ltb_spec (length b - 8) 4) as [L|L].
  - split; [|intros (? & _); lia]. intros P. exfalso. revert P.
    destruct (N.testbit (octet b 0) 1), (N.testbit (octet b 0) 0), (N.testbit (octet b 0) 2);
    repeat match goal with |- context [(?x <? ?y)%nat] => destruct (Nat.ltb_spec x y); try lia; cbn [bind] end; discriminate.
  - rewrite (slice_from_ok b 11) by lia.
    destruct (Nat.ltb_spec (length b - 8) 2); [lia|]. destruct (Nat.ltb_spec (length b - 8) 3); [lia|].
    destruct (Nat.ltb_spec 8 (length b)); [|lia]. destruct (Nat.ltb_spec 9 (length b)); [|lia]. destruct (Nat.ltb_spec 10 (length b)); [|lia].
    cbn [bind]. replace (if N.testbit (octet b 0) 1 then _ else _) with (Ok (E:=GTPV1Error) (if N.testbit (octet b 0) 1 then Some (be16 (octet b 8) (octet b 9)) else None)) by (destruct (N.testbit (octet b 0) 1); reflexivity).
    replace (if N.testbit (octet b 0) 0 then _ else _) with (Ok (E:=GTPV1Error) (if N.testbit (octet b 0) 0 then Some (octet b 10) else None)) by (destruct (N.testbit (octet b 0) 0); reflexivity).
    cbn [bind]. rewrite bind_ok_panic. destruct (N.testbit (octet b 0) 2).
    + rewrite bind_ok_panic, c_ext_panic. intuition lia.
    + split; [discriminate|intros (_ & _ & K & _); discriminate].
Qed.
Theorem chdr_has_len m b h : chdr_unmarshal m b = Ok h -> exists n, chdr_len m h = Ok n.
Proof.
  intros H. unfold chdr_unmarshal in H. destruct (_ <? _)%nat; [discriminate|]. apply bind_ok in H as (b0 & _ & H). destruct (_ && _)%bool; [|discriminate].
  do 7 apply bind_ok in H as (? & _ & H). cbv zeta in H. destruct (_ =? 0); [injection H as <-; eexists; reflexivity|].
  apply bind_ok in H as (sq & _ & H). apply bind_ok in H as (np & _ & H). apply bind_ok in H as (ex & Hx & H). injection H as <-. unfold chdr_len. cbn [c_ext c_sqn c_npdu].
  destruct ex as [l|].
  - destruct (_ =? 1); [|discriminate]. apply bind_ok in Hx as (r & _ & Hx). destruct (_ <? _)%nat; [discriminate|]. apply bind_ok in Hx as (r' & _ & Hx). apply bind_ok in Hx as (l' & Hl & Hx). injection Hx as <-.
    destruct (c_ext_sum _ _ _ Hl) as [n ->]. eexists. reflexivity.
  - destruct (_ || _)%bool; eexists; reflexivity.
Qed.

(* GTP-U *)
Definition is_last_u (e : ExtensionHeader) : bool := match e with NoMoreExtensionHeaders => true | _ => false end.
Lemma need_u_none t : ~ In t [192; 64; 3; 130; 32] -> need_u t = None.
Proof.
  intros H. unfold need_u. cbn [existsb]. cbn [In] in H.
  destruct (N.eqb_spec t 192), (N.eqb_spec t 64), (N.eqb_spec t 3), (N.eqb_spec t 130), (N.eqb_spec t 32); try reflexivity; exfalso; apply H; auto 6.
Qed.
Lemma uext_panic m r : ext_unmarshal m r = Panic <-> ext_overruns need_u m r.
Proof.
  destruct (list_eq_dec N.eq_dec r []) as [->|Hr]; [split; [intros _; left; reflexivity|reflexivity]|].
  unfold ext_unmarshal. rewrite at_octet. destruct (Nat.ltb_spec 0 (length r)) as [Hl|Hl]; [|destruct r; [contradiction|cbn in Hl; lia]]. cbn [bind].
  destruct (N.eqb_spec (octet r 0) NO_MORE_EXTENSION_HEADERS) as [E|E].
  { split; [discriminate|]. intros [?|[? _]]; contradiction. }
  codes (octet r 0); rewrite bind_ok_panic;
    try (match goal with K : octet r 0 = _ |- _ => first [apply num16_panic; [exact Hr|exact E|rewrite K; reflexivity]
      | apply sci_panic; [exact Hr|exact E|rewrite K; reflexivity]
      | apply long_panic; [exact Hr|rewrite K; auto|rewrite K; reflexivity]
      | apply blob_panic; [exact Hr|exact E|rewrite K; reflexivity]] end).
  apply unknown_panic; [exact Hr|exact E|]. apply need_u_none. cbn [In]. unfold PDCP_PDU_NUMBER, UDP_PORT, LONG_PDCP_PDU_NUMBER_I, LONG_PDCP_PDU_NUMBER_II, SCI in *. intuition congruence.
Qed.
Lemma uext_no_err m r : (2 <= length r)%nat -> octet r 0 <> 0 -> octet r 1 <> 0 -> (m = Debug -> octet r 1 < 64) -> (ext_size (octet r 1) <= length r)%nat ->
  ext_unmarshal m r = Panic \/ exists e, ext_unmarshal m r = Ok e.
Proof.
  intros H1 H0 H2 H3 H4. change (no_err (ext_unmarshal m r)). unfold ext_unmarshal. rewrite at_octet. destruct (Nat.ltb_spec 0 (length r)); [|lia]. cbn [bind].
  destruct (octet r 0 =? _); [apply no_err_ok|]. unfold Unknown_unmarshal, Num16_unmarshal, Sci_unmarshal, Long_unmarshal, Blob_unmarshal. rewrite !(at_octet r 0). destruct (Nat.ltb_spec 0 (length r)); [|lia]. cbn [bind].
  codes (octet r 0); apply no_err_bind; try (intros ?; apply no_err_ok); try (match goal with K : octet r 0 = _ |- _ => rewrite K end; match goal with |- context [(?a || ?b)%bool] => replace (a || b)%bool with true by reflexivity end); rewrite checked_eq by assumption; no_errs.
Qed.
Lemma uext_sizes m r e : ext_unmarshal m r = Ok e -> if is_last_u e then octet r 0 = 0 else octet r 0 <> 0 /\ sized m r (ext_len m e).
Proof.
  intros H. unfold ext_unmarshal in H. rewrite at_octet in H. destruct (_ <? _)%nat; [|discriminate]. cbn [bind] in H.
  destruct (N.eqb_spec (octet r 0) NO_MORE_EXTENSION_HEADERS) as [E|E]; [injection H as <-; exact E|].
  repeat match type of H with context [if octet r 0 =? ?c then _ else _] => destruct (N.eqb_spec (octet r 0) c) as [?|?] end;
    apply bind_ok in H as (x & Hx & H); injection H as <-; cbn [is_last_u ext_len]; (split; [exact E|]);
    first [exact (num16_sized _ _ _ _ Hx)|exact (sci_sized _ _ _ Hx)|exact (long_sized _ _ _ Hx)|exact (blob_sized _ _ _ _ Hx)|exact (unknown_sized _ _ _ Hx)].
Qed.
Theorem u_ext_panic m b : unmarshal_ext_hdr m b = Panic <-> chain_crashes need_u m b.
Proof.
  apply (loop_panic m (ext_unmarshal m) is_last_u (ext_len m) need_u (ext_loop m)).
  - reflexivity.
  - intros f c d e. cbn [ext_loop]. destruct (slice_from c d) as [r| | |]; cbn [bind]; try reflexivity. destruct (ext_unmarshal m r) as [i| | |]; cbn [bind]; try reflexivity. destruct i; reflexivity.
  - apply uext_panic.
  - apply uext_no_err.
  - apply uext_sizes.
Qed.
Lemma u_ext_sum m b l : unmarshal_ext_hdr m b = Ok l -> exists n, ext_len_sum m l = Ok n.
Proof.
  intros H. assert (K : forall e, In e l -> exists n, ext_len m e = Ok n).
  { apply (loop_sizes m (ext_unmarshal m) is_last_u (ext_len m) (ext_loop m)) with (4 := H).
    - reflexivity.
    - intros f c d e. cbn [ext_loop]. destruct (slice_from c d) as [r| | |]; cbn [bind]; try reflexivity. destruct (ext_unmarshal m r) as [i| | |]; cbn [bind]; try reflexivity. destruct i; reflexivity.
    - apply uext_sizes.
    - intros e []. }
  clear H. induction l as [|e l IH]; [exists 0%nat; reflexivity|]. cbn [ext_len_sum]. destruct (K e (or_introl eq_refl)) as [n ->]. destruct IH as [k ->]; [intros; apply K; right; assumption|]. eexists. reflexivity.
Qed.
Lemma flags_eq m b b0 mt len td : hdr_flags m b b0 mt len td =
  if N.testbit b0 1 then hdr_optional m b mt len td (N.testbit b0 0) (N.testbit b0 2)
  else if N.testbit b0 0 || N.testbit b0 2 then hdr_optional m b mt len td true true
  else Ok (mkHdr mt len td None None None).
Proof.
  unfold hdr_flags.
  assert (F : forall n, N.shiftr (N.land b0 (2 ^ n)) n = if N.testbit b0 n then 1 else 0).
  { intros n. apply N.bits_inj. intros i. rewrite N.shiftr_spec, N.land_spec, N.pow2_bits_eqb by lia.
    destruct (N.eqb_spec n (i + n)) as [K|K].
    - assert (i = 0) by lia. subst i. rewrite N.add_0_l, andb_true_r. destruct (N.testbit b0 n); reflexivity.
    - rewrite andb_false_r. destruct (N.testbit b0 n); [|symmetry; apply N.bits_0]. destruct i; [lia|reflexivity]. }
  change (N.land b0 2) with (N.land b0 (2 ^ 1)). change (N.land b0 4) with (N.land b0 (2 ^ 2)). rewrite (F 1), (F 2), flag_land0. destruct (N.testbit b0 1), (N.testbit b0 0), (N.testbit b0 2); reflexivity.
Qed.
Lemma version_u_iff b0 : ((N.shiftr b0 5 =? 1) && (N.shiftr (N.land b0 16) 4 =? 1))%bool = true <-> b0 / 16 = 3.
Proof.
  rewrite <- version_iff. assert (F : N.shiftr (N.land b0 16) 4 = N.land (N.shiftr b0 4) 1); [|rewrite F; reflexivity].
  rewrite N.shiftr_land. reflexivity.
Qed.
Lemma optional_panic m b mt len td np ext : (8 <= length b)%nat ->
  (hdr_optional m b mt len td np ext = Panic <-> (12 <= length b)%nat /\ ext = true /\ chain_crashes need_u m (skipn 11 b)).
Proof.
  intros H. unfold hdr_optional. rewrite (slice_from_ok b 8) by lia. cbn [bind]. rewrite skipn_length. destruct (Nat.leb_spec 4 (length b - 8)) as [L|L]; [|split; [discriminate|intros [? _]; lia]].
  rewrite !at_octet. destruct (Nat.ltb_spec 8 (length b)); [|lia]. destruct (Nat.ltb_spec 9 (length b)); [|lia]. destruct (Nat.ltb_spec 10 (length b)); [|lia]. cbn [bind].
  replace (if np then Ok (Some (octet b 10)) else Ok None) with (Ok (E:=GTPV1Error) (if np then Some (octet b 10) else None)) by (destruct np; reflexivity). cbn [bind].
  destruct ext; [|split; [discriminate|intros (_ & ? & _); discriminate]]. rewrite (slice_from_ok b 11) by lia. cbn [bind]. rewrite bind_ok_panic, u_ext_panic. intuition lia.
Qed.
Theorem hdr_panic m b : hdr_unmarshal m b = Panic <-> header_u_crashes m b.
Proof.
  unfold header_u_crashes, hdr_unmarshal. destruct (Nat.leb_spec 8 (length b)) as [H|H]; [|split; [discriminate|intros [? _]; lia]].
  rewrite !at_octet. destruct (Nat.ltb_spec 0 (length b)); [|lia]. cbn [bind].
  destruct ((N.shiftr (octet b 0) 5 =? 1) && (N.shiftr (N.land (octet b 0) 16) 4 =? 1))%bool eqn:V.
  2:{ split; [discriminate|]. intros (_ & K & _). apply version_u_iff in K. congruence. }
  apply version_u_iff in V.
  destruct (Nat.ltb_spec 1 (length b)); [|lia]. destruct (Nat.ltb_spec 2 (length b)); [|lia]. destruct (Nat.ltb_spec 3 (length b)); [|lia].
  destruct (Nat.ltb_spec 4 (length b)); [|lia]. destruct (Nat.ltb_spec 5 (length b)); [|lia]. destruct (Nat.ltb_spec 6 (length b)); [|lia]. destruct (Nat.ltb_spec 7 (length b)); [|lia].
  cbn [bind]. rewrite be16_eq. destruct (N.eqb_spec (256 * octet b 2 + octet b 3) 0) as [Z|Z]; [split; [discriminate|intros (_ & _ & K & _); contradiction]|].
  rewrite flags_eq. destruct (N.testbit (octet b 0) 1); [|destruct (N.testbit (octet b 0) 0), (N.testbit (octet b 0) 2); cbn [orb]]; rewrite ?optional_panic by exact H; intuition congruence.
Qed.
Theorem hdr_has_len m b h : hdr_unmarshal m b = Ok h -> exists n, get_header_size m h = Ok n.
Proof.
  intros H. unfold hdr_unmarshal in H. destruct (_ <=? _)%nat; [|discriminate]. apply bind_ok in H as (b0 & _ & H). destruct (_ && _)%bool; [|discriminate].
  do 3 apply bind_ok in H as (? & _ & H). destruct (_ =? 0); [discriminate|]. do 4 apply bind_ok in H as (? & _ & H). rewrite flags_eq in H.
  assert (O : forall mt len td np ext, hdr_optional m b mt len td np ext = Ok h -> exists n, get_header_size m h = Ok n).
  { clear H. intros mt len td np ext H. unfold hdr_optional in H. apply bind_ok in H as (o & _ & H). destruct (_ <=? _)%nat; [|discriminate]. do 3 apply bind_ok in H as (? & _ & H). destruct ext.
    - apply bind_ok in H as (r & _ & H). apply bind_ok in H as (l & Hl & H). injection H as <-. unfold get_header_size. cbn [extension_headers]. destruct (u_ext_sum _ _ _ Hl) as [n ->]. eexists. reflexivity.
    - injection H as <-. eexists. reflexivity. }
  destruct (N.testbit b0 1); [eauto|]. destruct (_ || _)%bool; [eauto|]. injection H as <-. eexists. reflexivity.
Qed.
