(* V1USafety2.v - GTP-U header and message decoding on arbitrary octets. *)
From Verif Require Import BaseFacts V1U V1USpec V1UFacts V1USafety.
Local Open Scope N_scope.

Tactic Notation "leb_in" hyp(H) constr(a) constr(b) ident(X) :=
  cbv beta in H; revert H; destruct (Nat.leb_spec a b) as [X|X]; intros H; [|discriminate H].

Lemma at_app {E} b r i x : @at_ E b i = Ok x -> @at_ E (b ++ r) i = Ok x.
Proof.
  unfold at_. destruct (nth_error b i) eqn:H; [|discriminate]. intros [= ->].
  rewrite nth_error_app1, H by (apply nth_error_Some; congruence). reflexivity.
Qed.
Lemma slice_app {E} b r i j x : @slice E b i j = Ok x -> @slice E (b ++ r) i j = Ok x.
Proof.
  unfold slice. destruct (Nat.leb_spec i j), (Nat.leb_spec j (length b)); try discriminate.
  cbn [andb]. intros [= <-]. rewrite app_length.
  destruct (Nat.leb_spec j (length b + length r)); [|lia]. cbn [andb]. f_equal.
  rewrite skipn_app, firstn_app, skipn_length.
  replace (j - i - (length b - i))%nat with 0%nat by lia. cbn [firstn]. apply app_nil_r.
Qed.

Lemma ext_checked_app {A} m b r (k k' : N -> N -> res A) x :
  (forall l s y, k l s = Ok y -> k' l s = Ok y) ->
  ext_checked m b k = Ok x -> ext_checked m (b ++ r) k' = Ok x.
Proof.
  intros Hk H. apply ext_checked_inv in H as (t & l & v & s & -> & A1 & B & C & D).
  unfold ext_checked, at_. cbn [app nth_error bind]. destruct (N.eqb_spec l 0); [contradiction|].
  rewrite B. cbn [bind]. change (t :: l :: v ++ r) with ((t :: l :: v) ++ r). rewrite app_length.
  destruct (Nat.leb_spec (N.to_nat s) (length (t :: l :: v) + length r)); [|lia]. auto.
Qed.

Ltac mono1 :=
  match goal with
  | H : bind ?r _ = Ok _ |- _ =>
      apply bind_ok in H; destruct H as (? & ?E & H); first [apply (at_app _ _ _ _) in E | apply (slice_app _ _ _ _ _) in E];
      rewrite E; cbn [bind]
  end.

Lemma blob_app t m b r x : Blob_unmarshal t m b = Ok x -> Blob_unmarshal t m (b ++ r) = Ok x.
Proof.
  apply ext_checked_app. intros l s y H.
  apply bind_ok in H as (c & E & H). rewrite (slice_app _ r _ _ _ E). exact H.
Qed.
Lemma num16_app t m b r x : Num16_unmarshal t m b = Ok x -> Num16_unmarshal t m (b ++ r) = Ok x.
Proof.
  apply ext_checked_app. intros l s y H.
  apply bind_ok in H as (c & E & H). rewrite (at_app _ r _ _ E). cbn [bind].
  apply bind_ok in H as (c' & E' & H). rewrite (at_app _ r _ _ E'). exact H.
Qed.
Lemma sci_app m b r x : Sci_unmarshal m b = Ok x -> Sci_unmarshal m (b ++ r) = Ok x.
Proof.
  apply ext_checked_app. intros l s y H.
  apply bind_ok in H as (c & E & H). rewrite (at_app _ r _ _ E). exact H.
Qed.
Lemma long_app m b r x : Long_unmarshal m b = Ok x -> Long_unmarshal m (b ++ r) = Ok x.
Proof.
  unfold Long_unmarshal. intros H. apply bind_ok in H as (t & E & H). rewrite (at_app _ r _ _ E). cbn [bind].
  destruct (_ || _); [|discriminate]. revert H.
  apply ext_checked_app. intros l s y H.
  apply bind_ok in H as (c & E1 & H). rewrite (at_app _ r _ _ E1). cbn [bind].
  apply bind_ok in H as (c' & E' & H). rewrite (at_app _ r _ _ E'). cbn [bind].
  apply bind_ok in H as (c'' & E'' & H). rewrite (at_app _ r _ _ E''). exact H.
Qed.
Lemma unknown_app m b r x : Unknown_unmarshal m b = Ok x -> Unknown_unmarshal m (b ++ r) = Ok x.
Proof.
  unfold Unknown_unmarshal. intros H. apply bind_ok in H as (t & E & H). rewrite (at_app _ r _ _ E). cbn [bind].
  apply blob_app. exact H.
Qed.

Lemma ext_unmarshal_app m b r e : ext_unmarshal m b = Ok e -> ext_unmarshal m (b ++ r) = Ok e.
Proof.
  unfold ext_unmarshal. intros H. apply bind_ok in H as (t & E & H). rewrite (at_app _ r _ _ E). cbn [bind].
  repeat match type of H with (if ?c then _ else _) = _ => destruct c end; try exact H;
    apply bind_ok in H as (i & Ei & H);
    first [rewrite (num16_app _ _ _ r _ Ei) | rewrite (long_app _ _ r _ Ei) | rewrite (sci_app _ _ r _ Ei)
          | rewrite (blob_app _ _ _ r _ Ei) | rewrite (unknown_app _ _ r _ Ei)]; exact H.
Qed.

Lemma ext_loop_app m fuel : forall fuel' b r cursor data l, (fuel <= fuel')%nat ->
  ext_loop m fuel b cursor data = Ok l -> ext_loop m fuel' (b ++ r) cursor data = Ok l.
Proof.
  induction fuel as [|fuel IH]; intros [|fuel'] b r cursor data l Hf H; try discriminate; try lia.
  cbn [ext_loop] in H |- *. apply bind_ok in H as (rest & Hr & H).
  unfold slice_from in Hr. leb_in Hr cursor (length b) Hc. apply Ok_inj in Hr; subst rest.
  rewrite slice_from_ok by (rewrite app_length; lia). cbn [bind].
  apply bind_ok in H as (e & He & H).
  rewrite skipn_app. rewrite (ext_unmarshal_app _ _ _ _ He). cbn [bind].
  assert (Hgo : bind (ext_len m e) (fun l0 => ext_loop m fuel b (cursor + l0) (data ++ [e])) = Ok l ->
                bind (ext_len m e) (fun l0 => ext_loop m fuel' (b ++ r) (cursor + l0) (data ++ [e])) = Ok l).
  { intros H'. apply bind_ok in H' as (n & En & H'). rewrite En. cbn [bind]. apply IH; [lia|exact H']. }
  destruct e; auto.
Qed.

Lemma unmarshal_ext_app m b r l : unmarshal_ext_hdr m b = Ok l -> unmarshal_ext_hdr m (b ++ r) = Ok l.
Proof. apply ext_loop_app. rewrite app_length. lia. Qed.

(* Size of what a successful walk consumed. *)
Lemma ext_loop_size m fuel : forall b cursor data l, (cursor <= length b)%nat ->
  ext_loop m fuel b cursor data = Ok l ->
  exists l' n, l = data ++ l' /\ ext_len_sum m l' = Ok n /\ (cursor + n < length b)%nat.
Proof.
  induction fuel as [|fuel IH]; intros b cursor data l Hc H; [discriminate|].
  cbn [ext_loop] in H. rewrite slice_from_ok in H by assumption. cbn [bind] in H.
  apply bind_ok in H as (e & He & H). pose proof (skipn_length cursor b) as Hsk.
  destruct (ext_step_inv _ _ _ He) as [(r & E & ->)|(t & le & v & s & E & A & B & C & D & F & G)].
  - injection H as <-. exists [], 0%nat. rewrite app_nil_r. rewrite E in Hsk. cbn [length] in Hsk. split; [|split]; [reflexivity|reflexivity|lia].
  - assert (H' : ext_loop m fuel b (cursor + N.to_nat s) (data ++ [e]) = Ok l)
      by (destruct e; try (rewrite G in H; exact H); exfalso; apply F; reflexivity).
    apply IH in H'; [|lia]. destruct H' as (l' & n & -> & Hs & Hn).
    exists (e :: l'), (N.to_nat s + n)%nat. rewrite <- app_assoc. split; [reflexivity|].
    cbn [ext_len_sum]. rewrite G, Hs. cbn [bind]. split; [reflexivity|lia].
Qed.

(* ------------------------------------------------------------------ header *)
Definition flags_ok (b0 : N) : bool :=
  (N.shiftr (N.land b0 2) 1 =? b2n (flag_S b0)) && (N.land b0 1 =? b2n (flag_PN b0))
  && (N.shiftr (N.land b0 4) 2 =? b2n (flag_E b0)).
Lemma flags_sweep : forallb flags_ok (upto 256) = true. Proof. vm_compute. reflexivity. Qed.

Definition has_optional (b0 : N) : bool := flag_S b0 || flag_PN b0 || flag_E b0.

Lemma hdr_flags_eq m b b0 mt len td : byte b0 ->
  hdr_flags m b b0 mt len td =
  if has_optional b0
  then hdr_optional m b mt len td (if flag_S b0 then flag_PN b0 else true) (if flag_S b0 then flag_E b0 else true)
  else Ok (mkHdr mt len td None None None).
Proof.
  intros Hb. pose proof (sweep 256 flags_ok flags_sweep b0 Hb) as Hs. unfold flags_ok in Hs.
  apply andb_prop in Hs as [Hs H3]. apply andb_prop in Hs as [H1 H2].
  apply N.eqb_eq in H1, H2, H3. unfold hdr_flags, has_optional. rewrite H1, H2, H3.
  destruct (flag_S b0), (flag_PN b0), (flag_E b0); reflexivity.
Qed.

Lemma bytes_cons x l : bytes (x :: l) <-> byte x /\ bytes l.
Proof. split; [intros H; inversion H; auto|intros []; constructor; auto]. Qed.

Lemma hdr_flags_cases b0 :
  (forall m b mt len td, hdr_flags m b b0 mt len td = Ok (mkHdr mt len td None None None)) \/
  (exists np ext, forall m b mt len td, hdr_flags m b b0 mt len td = hdr_optional m b mt len td np ext).
Proof.
  unfold hdr_flags. generalize (N.shiftr (N.land b0 2) 1), (N.land b0 1), (N.shiftr (N.land b0 4) 2). intros x y z.
  destruct x as [|[p|p|]], y as [|[q|q|]], z as [|[k|k|]];
    first [left; reflexivity | right; do 2 eexists; reflexivity].
Qed.

(* What a buffer whose header decodes looks like. *)
Lemma hdr_inv m b h : hdr_unmarshal m b = Ok h ->
  exists b0 l1 l2 t1 t2 t3 t4 r,
    b = b0 :: msgtype h :: l1 :: l2 :: t1 :: t2 :: t3 :: t4 :: r /\
    h_length h = be16 l1 l2 /\ h_length h <> 0 /\ teid h = be32 t1 t2 t3 t4 /\
    N.shiftr b0 5 = 1 /\ N.shiftr (N.land b0 16) 4 = 1 /\
    hdr_flags m b b0 (msgtype h) (h_length h) (teid h) = Ok h.
Proof.
  unfold hdr_unmarshal. destruct (Nat.leb_spec 8 (length b)) as [Hl|]; [|discriminate].
  list_split b Hl. rename x into b0, x0 into mt, x1 into l1, x2 into l2, x3 into t1, x4 into t2, x5 into t3, x6 into t4.
  unfold at_; cbn [nth_error bind]. destruct (_ && _) eqn:Hv; [|discriminate].
  apply andb_prop in Hv as [Hv1 Hv2]. apply N.eqb_eq in Hv1, Hv2.
  destruct (N.eqb_spec (be16 l1 l2) 0) as [|Hnz]; [discriminate|].
  intros H.
  assert (msgtype h = mt /\ h_length h = be16 l1 l2 /\ teid h = be32 t1 t2 t3 t4) as (A & B & C).
  { clear -H.
    assert (Ho : forall np ext, hdr_optional m (b0 :: mt :: l1 :: l2 :: t1 :: t2 :: t3 :: t4 :: b) mt (be16 l1 l2) (be32 t1 t2 t3 t4) np ext = Ok h ->
       msgtype h = mt /\ h_length h = be16 l1 l2 /\ teid h = be32 t1 t2 t3 t4).
    { intros np ext Ho. unfold hdr_optional in Ho. apply bind_ok in Ho as (o & _ & Ho).
      destruct (4 <=? length o)%nat; [|discriminate].
      apply bind_ok in Ho as (? & _ & Ho). apply bind_ok in Ho as (? & _ & Ho). apply bind_ok in Ho as (? & _ & Ho).
      destruct ext; [apply bind_ok in Ho as (? & _ & Ho); apply bind_ok in Ho as (? & _ & Ho)|];
        injection Ho as <-; auto. }
    destruct (hdr_flags_cases b0) as [Hc|(np & ext & Hc)]; rewrite Hc in H; [injection H as <-; auto|eapply Ho; exact H]. }
  exists b0, l1, l2, t1, t2, t3, t4, b. rewrite A, B, C. auto 10.
Qed.

Lemma hdr_optional_app m b r mt len td np ext h :
  hdr_optional m b mt len td np ext = Ok h -> hdr_optional m (b ++ r) mt len td np ext = Ok h.
Proof.
  unfold hdr_optional. intros H. apply bind_ok in H as (o & Ho & H).
  unfold slice_from in Ho. leb_in Ho 8%nat (length b) Hl. apply Ok_inj in Ho; subst o.
  rewrite slice_from_ok by (rewrite app_length; lia). cbn [bind].
  leb_in H 4%nat (length (skipn 8 b)) H4.
  rewrite skipn_app, app_length. destruct (Nat.leb_spec 4 (length (skipn 8 b) + length (skipn (8 - length b) r))); [|lia].
  rewrite skipn_length in H4.
  apply bind_ok in H as (s1 & E & H). rewrite (at_app _ r _ _ E). cbn [bind]. clear E.
  apply bind_ok in H as (s2 & E & H). rewrite (at_app _ r _ _ E). cbn [bind]. clear E.
  apply bind_ok in H as (n & E & H).
  assert (E' : (if np then let? x := at_ (b ++ r) 10 in Ok (Some x) else Ok None) = @Ok GTPV1Error _ n).
  { destruct np; [|exact E]. apply bind_ok in E as (x & Ex & E). rewrite (at_app _ r _ _ Ex). exact E. }
  rewrite E'. cbn [bind]. destruct ext; [|exact H].
  apply bind_ok in H as (q & Hq & H). unfold slice_from in Hq. leb_in Hq 11%nat (length b) H11. apply Ok_inj in Hq; subst q.
  rewrite slice_from_ok by (rewrite app_length; lia). cbn [bind].
  apply bind_ok in H as (i & Hi & H). rewrite skipn_app, (unmarshal_ext_app _ _ _ _ Hi). exact H.
Qed.

(* Octets after the header never change what the header decodes to. *)
Lemma hdr_unmarshal_app m b r h : hdr_unmarshal m b = Ok h -> hdr_unmarshal m (b ++ r) = Ok h.
Proof.
  intros H. destruct (hdr_inv _ _ _ H) as (b0 & l1 & l2 & t1 & t2 & t3 & t4 & q & E & A & Anz & B & V1 & V2 & F).
  unfold hdr_unmarshal. rewrite app_length.
  destruct (Nat.leb_spec 8 (length b + length r)) as [_|Hbad]; [|rewrite E in Hbad; cbn [length] in Hbad; lia].
  assert (F' : hdr_flags m (b ++ r) b0 (msgtype h) (h_length h) (teid h) = Ok h).
  { clear -F. destruct (hdr_flags_cases b0) as [Hc|(np & ext & Hc)]; rewrite Hc in F |- *; [exact F|].
    apply hdr_optional_app; exact F. }
  rewrite A, B in F'. rewrite E in F' |- *. cbn [app] in F' |- *. unfold at_. cbn [nth_error bind].
  rewrite V1, V2. change ((1 =? 1) && (1 =? 1)) with true. cbv iota.
  destruct (N.eqb_spec (be16 l1 l2) 0); [congruence|]. exact F'.
Qed.

(* The decoded header ends inside the buffer. *)
Lemma header_size_decoded m b h : hdr_unmarshal m b = Ok h ->
  exists n, get_header_size m h = Ok n /\ (8 <= n <= length b)%nat.
Proof.
  intros H. destruct (hdr_inv _ _ _ H) as (b0 & l1 & l2 & t1 & t2 & t3 & t4 & q & E & A & Anz & B & V1 & V2 & F).
  assert (Hl : (8 <= length b)%nat) by (rewrite E; cbn [length]; lia).
  assert (Ho : forall mt len td np ext, hdr_optional m b mt len td np ext = Ok h ->
     exists n, get_header_size m h = Ok n /\ (8 <= n <= length b)%nat).
  { clear -Hl. intros mt len td np ext H. unfold hdr_optional in H. apply bind_ok in H as (o & Ho & H).
    rewrite slice_from_ok in Ho by exact Hl. apply Ok_inj in Ho; subst o.
    leb_in H 4%nat (length (skipn 8 b)) H4. rewrite skipn_length in H4.
    apply bind_ok in H as (s1 & _ & H). apply bind_ok in H as (s2 & _ & H). apply bind_ok in H as (n & _ & H).
    destruct ext.
    - apply bind_ok in H as (q & Hq & H). rewrite slice_from_ok in Hq by lia. apply Ok_inj in Hq; subst q.
      apply bind_ok in H as (i & Hi & H). injection H as <-.
      apply ext_loop_size in Hi; [|lia]. destruct Hi as (l' & k & -> & Hs & Hk). rewrite skipn_length in Hk.
      unfold get_header_size. cbn [extension_headers app]. rewrite Hs. cbn [bind].
      eexists; split; [reflexivity|lia].
    - injection H as <-. unfold get_header_size. cbn [extension_headers sequence_number npdu_number is_some orb].
      eexists; split; [reflexivity|lia]. }
  destruct (hdr_flags_cases b0) as [Hc|(np & ext & Hc)]; rewrite Hc in F; [|eapply Ho; exact F].
  injection F as F. unfold get_header_size. rewrite <- F. cbn [extension_headers sequence_number npdu_number is_some orb].
  eexists; split; [reflexivity|lia].
Qed.

(* When decoding the header returns. *)
Lemma hdr_returns m b : bytes b ->
  (forall b0, nth_error b 0 = Some b0 -> walks_extensions b0 = true -> (12 <= length b)%nat -> ext_chain (skipn 11 b)) ->
  returns (hdr_unmarshal m b).
Proof.
  intros Hb Hx. unfold hdr_unmarshal. destruct (Nat.leb_spec 8 (length b)) as [Hl|]; [|exact I].
  assert (exists b0 mt l1 l2 t1 t2 t3 t4 r, b = b0 :: mt :: l1 :: l2 :: t1 :: t2 :: t3 :: t4 :: r) as
    (b0 & mt & l1 & l2 & t1 & t2 & t3 & t4 & r & E).
  { clear -Hl. list_split b Hl. eauto 10. }
  assert (Hat : forall i x, nth_error b i = Some x -> @at_ GTPV1Error b i = Ok x) by (intros i x Hi; unfold at_; rewrite Hi; reflexivity).
  assert (H0 : nth_error b 0 = Some b0) by (rewrite E; reflexivity).
  rewrite (Hat 0%nat b0 H0). cbn [bind]. destruct (_ && _); [|exact I].
  rewrite (Hat 1%nat mt), (Hat 2%nat l1), (Hat 3%nat l2), (Hat 4%nat t1), (Hat 5%nat t2), (Hat 6%nat t3), (Hat 7%nat t4)
    by (rewrite E; reflexivity). cbn [bind].
  destruct (be16 l1 l2 =? 0); [exact I|].
  rewrite hdr_flags_eq by (eapply nth_error_bytes; eauto).
  destruct (has_optional b0) eqn:Ho; [|exact I].
  unfold hdr_optional. rewrite slice_from_ok by lia. cbn [bind].
  destruct (Nat.leb_spec 4 (length (skipn 8 b))) as [H4|]; [|exact I]. rewrite skipn_length in H4.
  destruct (@at_lt GTPV1Error b 8) as (s1 & -> & _); [lia|]. destruct (@at_lt GTPV1Error b 9) as (s2 & -> & _); [lia|].
  destruct (@at_lt GTPV1Error b 10) as (s3 & -> & _); [lia|]. cbn [bind].
  assert (Hn : exists n, (if (if flag_S b0 then flag_PN b0 else true) then Ok (Some s3) else Ok None) = @Ok GTPV1Error _ n)
    by (destruct (if flag_S b0 then flag_PN b0 else true); eauto).
  destruct Hn as (n & ->). cbn [bind].
  destruct (if flag_S b0 then flag_E b0 else true) eqn:Hext; [|exact I].
  rewrite slice_from_ok by lia. cbn [bind].
  assert (Hw : walks_extensions b0 = true).
  { unfold walks_extensions, has_optional in *. destruct (flag_S b0); [exact Hext|exact Ho]. }
  destruct (unmarshal_ext_chain m _ (Hx b0 H0 Hw ltac:(lia))) as (l & ->). exact I.
Qed.

(* ---------------------------------------------------------------- messages *)
Lemma negb_eqb_false a b : negb (a =? b) = false -> a = b.
Proof. intros H. apply N.eqb_eq. destruct (a =? b); [reflexivity|discriminate]. Qed.

Lemma type_octet {A} m b mt (k : Gtpv1Header -> res A) x :
  bind (hdr_unmarshal m b) (fun h => if negb (msgtype h =? mt) then Err MessageIncorrectMessageType else k h) = Ok x ->
  nth_error b 1 = Some mt.
Proof.
  intros H. apply bind_ok in H as (h & Hh & H).
  destruct (negb (msgtype h =? mt)) eqn:Et; [discriminate|]. apply negb_eqb_false in Et. subst mt.
  destruct (hdr_inv _ _ _ Hh) as (b0 & l1 & l2 & t1 & t2 & t3 & t4 & q & -> & _). reflexivity.
Qed.

Lemma wrong_type_errors {A} m b mt (k : Gtpv1Header -> res A) h :
  hdr_unmarshal m b = Ok h -> msgtype h <> mt ->
  bind (hdr_unmarshal m b) (fun h => if negb (msgtype h =? mt) then Err MessageIncorrectMessageType else k h)
  = Err MessageIncorrectMessageType.
Proof. intros -> Ht. cbn [bind]. destruct (N.eqb_spec (msgtype h) mt); [contradiction|reflexivity]. Qed.

Lemma add16_cases m a : a < 65536 -> forall r, add16 (E:=GTPV1Error) m a 8 = Ok r ->
  (a + 8 < 65536 /\ r = a + 8) \/ (65536 <= a + 8 /\ r = a + 8 - 65536 /\ r < 8).
Proof.
  intros Ha r. unfold add16, ov. destruct (N.ltb_spec (a + 8) 65536).
  - intros [= <-]. auto.
  - destruct m; [discriminate|]. intros [= <-]. right. split; [assumption|]. lia.
Qed.

Lemma be16_bound l1 l2 : byte l1 -> byte l2 -> be16 l1 l2 < 65536.
Proof. unfold byte, be16. lia. Qed.

Lemma hdr_length_u16 m b h : bytes b -> hdr_unmarshal m b = Ok h -> h_length h < 65536.
Proof.
  intros Hb H. destruct (hdr_inv _ _ _ H) as (b0 & l1 & l2 & t1 & t2 & t3 & t4 & q & E & A & _).
  rewrite A. subst b. rewrite !bytes_cons in Hb. apply be16_bound; apply Hb.
Qed.

(* A decoded G-PDU: the whole packet was there and the payload is exactly the octets after
   the header, up to the declared length. *)
Lemma gpdu_decoded m b g : bytes b -> Gpdu_unmarshal m b = Ok g ->
  h_length (gp_header g) <= 65527 /\ h_length (gp_header g) + 8 <= nlen b /\
  exists hs, get_header_size m (gp_header g) = Ok hs /\
    gp_tpdu g = firstn (N.to_nat (h_length (gp_header g)) + 8 - hs) (skipn hs b).
Proof.
  intros Hb H. unfold Gpdu_unmarshal in H. apply bind_ok in H as (h & Hh & H).
  destruct (negb _); [discriminate|]. apply bind_ok in H as (tot & Ht & H).
  pose proof (hdr_length_u16 _ _ _ Hb Hh) as Hu.
  destruct (header_size_decoded _ _ _ Hh) as (hs & Hhs & Hb8 & _).
  leb_in H (N.to_nat tot) (length b) Hle.
  rewrite Hhs in H. cbn [bind] in H. apply bind_ok in H as (p & Hp & [= <-]). cbn [gp_header gp_tpdu].
  unfold slice in Hp. leb_in Hp hs (N.to_nat tot) Hhst.
  destruct (add16_cases m _ Hu _ Ht) as [(A & ->)|(A & -> & B)]; [|lia].
  cbn [andb] in Hp. leb_in Hp (N.to_nat (h_length h + 8)) (length b) Hle2. injection Hp as <-.
  split; [lia|]. split; [unfold nlen; lia|]. exists hs. split; [exact Hhs|].
  replace (N.to_nat (h_length h + 8) - hs)%nat with (N.to_nat (h_length h) + 8 - hs)%nat by lia. reflexivity.
Qed.

Lemma gpdu_app m b r g : Gpdu_unmarshal m b = Ok g -> Gpdu_unmarshal m (b ++ r) = Ok g.
Proof.
  intros H. unfold Gpdu_unmarshal in *. apply bind_ok in H as (h & Hh & H).
  rewrite (hdr_unmarshal_app _ _ r _ Hh). cbn [bind]. destruct (negb _); [discriminate|].
  apply bind_ok in H as (tot & Ht & H). rewrite Ht. cbn [bind].
  leb_in H (N.to_nat tot) (length b) Hle.
  rewrite app_length. destruct (Nat.leb_spec (N.to_nat tot) (length b + length r)); [|lia].
  apply bind_ok in H as (hs & E & H). rewrite E. cbn [bind].
  apply bind_ok in H as (p & Ep & H). rewrite (slice_app _ r _ _ _ Ep). exact H.
Qed.

(* When, given a decodable header, G-PDU decoding returns. *)
Lemma gpdu_returns_iff m b h hs : bytes b -> hdr_unmarshal m b = Ok h -> msgtype h = GPDU ->
  get_header_size m h = Ok hs ->
  (returns (Gpdu_unmarshal m b) <->
   (h_length h <= 65527 /\ (N.of_nat hs <= h_length h + 8 \/ nlen b < h_length h + 8))).
Proof.
  intros Hb Hh Ht Hhs. unfold Gpdu_unmarshal. rewrite Hh. cbn [bind]. rewrite Ht, N.eqb_refl. cbn [negb].
  pose proof (hdr_length_u16 _ _ _ Hb Hh) as Hu.
  destruct (header_size_decoded _ _ _ Hh) as (hs' & Hhs' & Hb8 & Hb9). rewrite Hhs in Hhs'. injection Hhs' as <-.
  unfold nlen.
  destruct (N.ltb_spec (h_length h) 65528) as [Hs|Hs].
  - rewrite add16_small by lia. cbn [bind].
    destruct (Nat.leb_spec (N.to_nat (h_length h + 8)) (length b)).
    + rewrite Hhs. cbn [bind]. unfold slice. destruct (Nat.leb_spec hs (N.to_nat (h_length h + 8))), (Nat.leb_spec (N.to_nat (h_length h + 8)) (length b));
        cbn [andb bind returns]; split; try tauto; intros; try lia.
    + cbn [returns]. split; [lia|tauto].
  - split; [|lia]. unfold add16, ov. destruct (N.ltb_spec (h_length h + 8) 65536); [lia|].
    destruct m; cbn [bind]; [intros []|].
    replace ((h_length h + 8) mod 65536) with (h_length h + 8 - 65536) by lia.
    destruct (Nat.leb_spec (N.to_nat (h_length h + 8 - 65536)) (length b)); [|lia].
    rewrite Hhs. cbn [bind]. unfold slice. destruct (Nat.leb_spec hs (N.to_nat (h_length h + 8 - 65536))); [lia|].
    cbn. tauto.
Qed.

Lemma pe_returns m r : pe_harmless r -> returns (Pe_unmarshal m r).
Proof.
  unfold Pe_unmarshal. destruct r as [|t [|l1 [|l2 r]]]; try (intros; exact I).
  cbn [pe_harmless length Nat.leb]. intros [H1 H2]. unfold at_ at 1 2. cbn [nth_error bind].
  destruct (N.eqb_spec (be16 l1 l2) 0) as [E|E]; [exact I|].
  unfold check_tlv_ie_buffer. destruct (N.eqb_spec (be16 l1 l2) 0); [congruence|].
  rewrite add16_small by lia. cbn [bind].
  destruct (Nat.leb_spec (N.to_nat (be16 l1 l2 + 3)) (length (t :: l1 :: l2 :: r))) as [Hl|]; [|exact I].
  cbn [length] in Hl. assert (Hr : (2 <= length r)%nat).
  { destruct (N.eqb_spec (be16 l1 l2) 1); [auto|lia]. }
  destruct r as [|a [|b r]]; cbn [length] in Hr; try lia. exact I.
Qed.

Lemma optional_returns {A} (r : res A) : returns r -> returns (optional r).
Proof. destruct r; exact (fun H => H). Qed.

Lemma simple_returns mt m b : bytes b -> returns (hdr_unmarshal m b) ->
  (forall h hs, hdr_unmarshal m b = Ok h -> get_header_size m h = Ok hs -> pe_harmless (skipn hs b)) ->
  returns (Simple_unmarshal mt m b).
Proof.
  intros Hb Hr Hp. unfold Simple_unmarshal. destruct (hdr_unmarshal m b) as [h| | |] eqn:Hh; try exact Hr; try exact I.
  cbn [bind]. destruct (negb _); [exact I|]. destruct (_ <? _)%nat; [|exact I].
  destruct (header_size_decoded _ _ _ Hh) as (hs & Hhs & _ & Hle). rewrite Hhs. cbn [bind].
  rewrite slice_from_ok by exact Hle. cbn [bind].
  pose proof (optional_returns _ (pe_returns m _ (Hp h hs eq_refl Hhs))) as Ho.
  destruct (optional _); cbn [bind]; exact Ho.
Qed.

Lemma echoresp_returns m b : bytes b -> returns (hdr_unmarshal m b) ->
  (forall h hs, hdr_unmarshal m b = Ok h -> get_header_size m h = Ok hs -> pe_harmless (skipn (hs + 2) b)) ->
  returns (EchoResponse_unmarshal m b).
Proof.
  intros Hb Hr Hp. unfold EchoResponse_unmarshal. destruct (hdr_unmarshal m b) as [h| | |] eqn:Hh; try exact Hr; try exact I.
  cbn [bind]. destruct (negb _); [exact I|]. destruct (_ <? _)%nat; [|exact I].
  destruct (header_size_decoded _ _ _ Hh) as (hs & Hhs & _ & Hle). rewrite Hhs. cbn [bind].
  destruct (Nat.ltb_spec hs (length b)) as [Hlt|]; [|exact I].
  destruct (@at_lt GTPV1Error b hs Hlt) as (t & -> & _). cbn [bind].
  destruct (t =? RECOVERY); [|exact I]. rewrite slice_from_ok by exact Hle. cbn [bind].
  assert (Hrec : returns (Rec_unmarshal (skipn hs b))).
  { unfold Rec_unmarshal. destruct (Nat.ltb_spec 1 (length (skipn hs b))); [|exact I].
    destruct (@at_lt GTPV1Error (skipn hs b) 0) as (? & -> & _); [lia|].
    destruct (@at_lt GTPV1Error (skipn hs b) 1) as (? & -> & _); [lia|]. exact I. }
  destruct (Rec_unmarshal (skipn hs b)); cbn [bind]; try exact Hrec.
  destruct (Nat.ltb_spec (hs + 2) (length b)) as [Hlt2|]; [|exact I].
  rewrite slice_from_ok by lia. cbn [bind].
  pose proof (optional_returns _ (pe_returns m _ (Hp h hs eq_refl Hhs))) as Ho.
  destruct (optional _); cbn [bind]; exact Ho.
Qed.

Lemma supext_returns m b : bytes b -> returns (hdr_unmarshal m b) ->
  (forall h hs, hdr_unmarshal m b = Ok h -> get_header_size m h = Ok hs ->
     h_length h <= 65527 /\ (forall l, nth_error b (hs + 1) = Some l -> l <= 253) /\ length b <> (hs + 1)%nat) ->
  returns (SupExtNotif_unmarshal m b).
Proof.
  intros Hb Hr Hp. unfold SupExtNotif_unmarshal. destruct (hdr_unmarshal m b) as [h| | |] eqn:Hh; try exact Hr; try exact I.
  cbn [bind]. destruct (negb _); [exact I|].
  destruct (header_size_decoded _ _ _ Hh) as (hs & Hhs & _ & Hle).
  destruct (Hp h hs eq_refl Hhs) as (HL & Hl & Hne).
  rewrite add16_small by lia. cbn [bind]. destruct (_ <=? _)%nat; [|exact I].
  rewrite Hhs. cbn [bind]. destruct (Nat.eqb_spec hs (length b)); [exact I|].
  destruct (@at_lt GTPV1Error b hs) as (t & -> & _); [lia|]. cbn [bind]. destruct (t =? _); [|exact I].
  rewrite slice_from_ok by exact Hle. cbn [bind]. unfold Ehtl_unmarshal.
  destruct (@at_lt GTPV1Error (skipn hs b) 1) as (l & -> & Hn); [rewrite skipn_length; lia|]. cbn [bind].
  rewrite nth_error_skipn in Hn.
  destruct (l =? 0); [exact I|]. rewrite add8_small by (specialize (Hl l Hn); lia). cbn [bind].
  destruct (_ <=? _)%nat; [|exact I]. rewrite slice_from_ok by (rewrite skipn_length; lia). exact I.
Qed.
