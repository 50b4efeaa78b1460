(* V2MsgReadFacts.v - the header and message decoders against V2MsgReadSpec.v *)
From Coq Require Import String.
From Verif Require Import Base BaseFacts Octets V2BaseFacts V2MsgReadSpec V2MsgThms V2MsgWire V2ListFacts.
Local Open Scope N_scope.
Notation length := List.length.

Lemma one_bit x n : (N.land (N.shiftr x n) 1 =? 0) = negb (bit_at x n).
Proof.
  unfold bit_at. rewrite N.shiftr_div_pow2. change 1 with (N.ones 1) at 1. rewrite N.land_ones. change (2 ^ 1) with 2.
  assert (H : (x / 2 ^ n) mod 2 < 2) by (apply N.mod_lt; lia).
  destruct ((x / 2 ^ n) mod 2) as [|[p|p|]]; try reflexivity; lia.
Qed.

Lemma header_says_iff b h : h2_unmarshal b = Ok h <-> header_says b h.
Proof.
  unfold h2_unmarshal, header_says, MIN_HEADER_LENGTH, MAX_HEADER_LENGTH, nlen.
  destruct (Nat.leb_spec 8 (length b)) as [H8|H8].
  2:{ split; [discriminate|]. intros (_ & _ & _ & _ & H). destruct (bit_at _ 3); lia. }
  list_split b H8. clear H8. rewrite !at_cons, !at_0. cbn [bind].
  unfold number_at. cbn [skipn firstn]. unfold base256. cbn [fold_left].
  change (256 * 0) with 0. rewrite !N.add_0_l. unfold be16, be32. cbn [bind].
  replace (x2 + 256 * x1) with (256 * x1 + x2) by lia.
  rewrite !one_bit. rewrite N.shiftr_div_pow2. change (2 ^ 5) with 32.
  destruct (N.eqb_spec (x / 32) 2) as [V|V]; cbn [negb].
  2:{ split; [discriminate|]. intros (H & _). contradiction. }
  destruct (bit_at x 3) eqn:B3; cbn [negb].
  - destruct b as [|x7 [|x8 [|x9 [|x10 b]]]];
      try (cbn [length Nat.leb]; split; [discriminate|]; intros (_ & _ & _ & _ & H & _); cbn [length] in H; lia).
    cbn [length Nat.leb]. rewrite !at_cons, !at_0. cbn [bind]. rewrite negb_involutive.
    cbn [skipn firstn fold_left]. rewrite !N.shiftr_div_pow2. change (2 ^ 4) with 16.
    destruct (N.ltb_spec (x1 * 256 + x2) 8) as [Hl|Hl].
    { split; [discriminate|]. intros (_ & _ & _ & Hn & _ & H & _). lia. }
    split.
    + intros E. apply Ok_inj in E. subst h. cbn [h2_piggyback h2_msgtype h2_length h2_teid h2_sqn h2_prio].
      repeat split; try lia; try (f_equal; lia). destruct (bit_at x 2); reflexivity.
    + intros (_ & E1 & E2 & E3 & _ & _ & E4 & E5 & E6). destruct h as [mt pb pr ln td sq].
      cbn [h2_piggyback h2_msgtype h2_length h2_teid h2_sqn h2_prio] in *. subst. f_equal. f_equal; try lia; try (f_equal; lia).
      destruct (bit_at x 2); reflexivity.
  - destruct (N.eqb_spec (x1 * 256 + x2) 0) as [Hz|Hz].
    { split; [discriminate|]. intros (_ & _ & _ & Hn & _ & H & _). lia. }
    destruct (N.ltb_spec (x1 * 256 + x2) 4) as [Hl|Hl].
    { split; [discriminate|]. intros (_ & _ & _ & Hn & _ & H & _). lia. }
    rewrite negb_involutive. split.
    + intros E. apply Ok_inj in E. subst h. cbn [h2_piggyback h2_msgtype h2_length h2_teid h2_sqn h2_prio length].
      repeat split; try lia.
    + intros (_ & E1 & E2 & E3 & _ & _ & E4 & E5 & E6). destruct h as [mt pb pr ln td sq].
      cbn [h2_piggyback h2_msgtype h2_length h2_teid h2_sqn h2_prio] in *. subst. f_equal. f_equal; lia.
Qed.

(* ------------------------------------------------------------------------- *)
(* where the elements are *)
Lemma element_octets_iff name b h s : element_octets name b h s <->
  (elements_from name <= N.to_nat (h2_length h) + 4 /\ N.to_nat (h2_length h) + 4 <= length b)%nat /\
  s = firstn (N.to_nat (h2_length h) + 4 - elements_from name) (skipn (elements_from name) b).
Proof.
  unfold element_octets, nlen. split.
  - intros (pre & post & -> & Hp & Hn). rewrite !app_length. split; [lia|].
    rewrite <- Hp. rewrite skipn_app, skipn_all, Nat.sub_diag. cbn [skipn app].
    rewrite firstn_app. replace (_ + 4 - _ - length s)%nat with 0%nat by lia. cbn [firstn]. rewrite app_nil_r.
    symmetry. apply firstn_all2. lia.
  - intros ([H1 H2] & ->). set (n := elements_from name) in *. set (e := (N.to_nat (h2_length h) + 4)%nat) in *.
    exists (firstn n b), (skipn (e - n) (skipn n b)). rewrite firstn_skipn, firstn_skipn.
    rewrite !firstn_length, skipn_length. repeat split; lia.
Qed.

Lemma starts_from : forallb (fun p => match md_start (fst p) with
    | Some s => (s =? elements_from (md_name (fst p)))%nat && negb (String.eqb (md_name (fst p)) "VersionNotSupported")
    | None => String.eqb (md_name (fst p)) "VersionNotSupported" && is_nil (snd p) end) gtpv2_messages = true.
Proof. vm_compute. reflexivity. Qed.

(* ------------------------------------------------------------------------- *)
(* the fields *)
Lemma field_holds_iff f l v : field_holds f l v <-> v = keeps (f_keep f) (filter (V2MsgFacts.fits f) l).
Proof.
  unfold field_holds. assert (S := sublist_filter (belongs f) (V2MsgFacts.fits f) l (fits_belongs f)). split.
  - intros (s & H & ->). assert (s = filter (V2MsgFacts.fits f) l) as ->; [|reflexivity].
    clear S. induction H as [|x l s P H IH|x l s P H IH]; cbn [filter]; [reflexivity| |].
    + rewrite (proj2 (fits_belongs f x) P). f_equal. exact IH.
    + destruct (V2MsgFacts.fits f x) eqn:E; [|exact IH]. apply fits_belongs in E. contradiction.
  - intros ->. eexists. split; [exact S|]. destruct (f_keep f); reflexivity.
Qed.

Lemma inits : forallb (fun p => String.eqb (md_name (fst p)) "IdentificationResponse" || forallb is_nil (md_init (fst p))) gtpv2_messages = true.
Proof. vm_compute. reflexivity. Qed.

Lemma identification d L : In (d, L) gtpv2_messages -> md_name d = "IdentificationResponse"%string -> (d, L) = (md_identificationresp, ly_identificationresp).
Proof.
  intros H E. unfold gtpv2_messages in H.
  repeat (destruct H as [H|H]; [first [exact (eq_sym H) | apply (f_equal fst) in H; cbn [fst] in H; subst d; discriminate E]|]). destruct H.
Qed.

Lemma contents_plain d L l : forallb is_nil (md_init d) = true -> contents d L l = map (fun f => keeps (f_keep f) (filter (V2MsgFacts.fits f) l)) L.
Proof.
  intros H. unfold contents, numbered. generalize 0%nat as k. induction L as [|f L IH]; intros k; [reflexivity|]. cbn [length seq combine map fst snd].
  rewrite IH. f_equal. assert (E : nth k (md_init d) [] = []).
  { clear - H. rewrite forallb_forall in H. destruct (nth_in_or_default k (md_init d) []) as [N|N]; [|exact N].
    apply H in N. destruct (nth k (md_init d) []); [reflexivity|discriminate]. }
  rewrite E. unfold V2MsgFacts.or_else. destruct (keeps _ _); reflexivity.
Qed.

Lemma holds_map l L x : Forall2 (fun f v => field_holds f l v) L x <-> x = map (fun f => keeps (f_keep f) (filter (V2MsgFacts.fits f) l)) L.
Proof.
  split.
  - intros H. induction H as [|f v L x H _ IH]; [reflexivity|]. cbn [map]. apply field_holds_iff in H. rewrite H, IH at 1. reflexivity.
  - intros ->. induction L as [|f L IH]; constructor; [apply field_holds_iff; reflexivity|exact IH].
Qed.

Lemma fields_say_iff d L l x : In (d, L) gtpv2_messages -> (fromvec d l = Ok x <-> fields_say (md_name d) L l x).
Proof.
  intros H. unfold fields_say. destruct (String.eqb_spec (md_name d) "IdentificationResponse") as [E|E].
  - assert (Hc : fromvec d l = Ok (contents d L l)).
    { pose proof (identification d L H E) as J. injection J as -> ->.
      destruct (fromvec md_identificationresp l) as [y| | |] eqn:Y; try (unfold fromvec in Y; cbn [md_final md_identificationresp decide] in Y; discriminate Y).
      rewrite (fromvec_contents _ _ _ _ (mk_good _ _ H) Y). reflexivity. }
    rewrite Hc. pose proof (identification d L H E) as J. injection J as -> ->. clear Hc H E.
    assert (Q : contents md_identificationresp ly_identificationresp l =
      V2MsgFacts.or_else [assumed_cause] (keeps KeepFirst (filter (V2MsgFacts.fits (hd (field "" K_Imsi One [] None KeepFirst) ly_identificationresp)) l)) ::
      map (fun f => keeps (f_keep f) (filter (V2MsgFacts.fits f) l)) (tl ly_identificationresp)).
    { cbn [ly_identificationresp tl hd]. unfold contents, numbered. cbn [ly_identificationresp length seq combine map fst snd md_identificationresp md_init nth f_keep].
      assert (O : forall v, V2MsgFacts.or_else [] v = v) by (intros []; reflexivity). rewrite !O. reflexivity. }
    rewrite Q. clear Q. unfold ly_identificationresp at 1 2 3. cbn [hd tl].
    match goal with |- context [filter (V2MsgFacts.fits ?f) l] => set (f0 := f) end.
    match goal with |- context [Forall2 _ ?L' _] => set (L0 := L') end. destruct x as [|v x].
    { split; [discriminate|contradiction]. }
    rewrite holds_map. change (map (fun f => keeps (f_keep f) (filter (V2MsgFacts.fits f) l)) (tl ly_identificationresp)) with (map (fun f => keeps (f_keep f) (filter (V2MsgFacts.fits f) l)) L0).
    rewrite !field_holds_iff. change (f_keep f0) with KeepFirst. generalize (keeps KeepFirst (filter (V2MsgFacts.fits f0) l)) as K. intros K.
    set (M0 := map _ L0). clearbody M0. split.
    + intros Hx. apply Ok_inj in Hx. injection Hx as <- <-. split; [|reflexivity].
      destruct K as [|e r]; cbn [V2MsgFacts.or_else]; [right; auto|left; split; [reflexivity|discriminate]].
    + intros (Hv & ->). f_equal. f_equal. destruct Hv as [[-> Hv]|[Hn ->]].
      * destruct K; [contradiction|reflexivity].
      * rewrite <- Hn. reflexivity.
  - assert (U : ~ In (md_name d) unenforced) by (intros [E'|[]]; congruence).
    pose proof (fromvec_ok_iff d L (mk_good d L H) (mk_flags d L H) (mk_enforces d L H U) l) as I.
    assert (P : contents d L l = map (fun f => keeps (f_keep f) (filter (V2MsgFacts.fits f) l)) L).
    { apply contents_plain. pose proof inits as T. rewrite forallb_forall in T. specialize (T _ H). cbn [fst] in T.
      apply orb_true_iff in T. destruct T as [T|T]; [|exact T]. apply String.eqb_eq in T. contradiction. }
    rewrite holds_map, <- P. split.
    + intros Hx. split; [apply I; eauto|]. exact (fromvec_contents _ _ _ _ (mk_good _ _ H) Hx).
    + intros [Hm ->]. apply I in Hm. destruct Hm as [y Hy]. rewrite Hy. f_equal. exact (fromvec_contents _ _ _ _ (mk_good _ _ H) Hy).
Qed.

Theorem message_says_iff d L b x : In (d, L) gtpv2_messages -> bytes b ->
  (msg_unmarshal d Debug b = Ok x <-> message_says (md_name d) (md_type d) L b x).
Proof.
  intros H Hb. pose proof starts_from as S. rewrite forallb_forall in S. specialize (S _ H). cbn [fst snd] in S.
  assert (B : forall i n, bytes (firstn n (skipn i b))).
  { intros i n. unfold bytes in *. apply Forall_forall. intros y Hy. rewrite Forall_forall in Hb. apply Hb.
    rewrite <- (firstn_skipn i b). apply in_or_app. right. rewrite <- (firstn_skipn n (skipn i b)). apply in_or_app. left. exact Hy. }
  unfold message_says. split.
  - intros U. destruct (unmarshal_ok_carries d L Debug b x H U) as (l & (Hh & Ht & Hc) & Hf).
    apply header_says_iff in Hh. split; [exact Hh|split; [exact Ht|]]. destruct (md_start d) as [s|] eqn:Es.
    + apply andb_true_iff in S. destruct S as [S1 S2]. apply Nat.eqb_eq in S1. subst s. apply negb_true_iff in S2. rewrite S2.
      destruct Hc as [Hs Hd]. eexists _, l. split; [apply element_octets_iff; split; [exact Hs|reflexivity]|].
      split; [apply decoder_iff; [apply B|exact Hd]|]. apply fields_say_iff; assumption.
    + apply andb_true_iff in S. destruct S as [S1 S2]. rewrite S1. rewrite (fromvec_contents d L l _ (mk_good d L H) Hf).
      destruct L; [reflexivity|discriminate].
  - intros (Hh & Ht & Hr). apply header_says_iff in Hh. destruct (md_start d) as [s|] eqn:Es.
    + apply andb_true_iff in S. destruct S as [S1 S2]. apply Nat.eqb_eq in S1. apply negb_true_iff in S2. rewrite S2 in Hr.
      destruct Hr as (o & l & Ho & Hl & Hf). apply element_octets_iff in Ho. destruct Ho as [Hs ->]. apply decoder_iff in Hl; [|apply B].
      rewrite (unmarshal_carries d L Debug b (msg_header x) l H).
      * apply fields_say_iff with (d := d) in Hf; [|exact H]. rewrite Hf. destruct x; reflexivity.
      * unfold carries. rewrite Es, S1. auto.
    + apply andb_true_iff in S. destruct S as [S1 S2]. rewrite S1 in Hr.
      rewrite (unmarshal_carries d L Debug b (msg_header x) [] H).
      * pose proof starts_ok as T. rewrite forallb_forall in T. specialize (T _ H). unfold no_start_no_fields in T. cbn [fst snd] in T.
        rewrite Es, !andb_true_iff in T. destruct T as [[[_ T1] T2] _]. unfold fromvec. cbn [fold_left st_slots].
        destruct (md_init d), (md_final d); try discriminate. cbn. rewrite <- Hr. destruct x; reflexivity.
      * unfold carries. rewrite Es. auto.
Qed.
