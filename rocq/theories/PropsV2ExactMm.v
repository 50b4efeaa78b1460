(* PropsV2ExactMm.v - C65: the condition for sending MM contexts on is exact as well, but for EPS contexts in which a
   capability is missing. *)
From Verif Require Import Base BaseFacts Digits DigitsFacts Labels LabelsFacts LabelsLen V2ForwardSpec V2MsgReadSpec V2Forward V2ForwardC V2ListFacts V2DecMore V2DecFacts V2IeFacts V2Cursor V2Kind PropsV2Exact PropsV2ExactGroups.
From Verif Require V2DecLoop V2OwnFacts V2CommonFacts V2Volume PropsV2Ie PropsV2Forward.
Local Open Scope N_scope.

Definition hop_octets (o : option (list N)) (n : option N) : list N :=
  match o, n with Some i, Some j => i ++ [N.land j 7] | Some i, None => i ++ [0] | None, _ => [] end.
Definition old_octets (o : option old_eps_ctx) : list N := match o with Some o => OldEpsSecurityContext_enc o | None => [] end.
(* the fields of variable size that are not there take no octets *)
Ltac none := unfold V2IeD.opt_list, opt_oct, opt_ambr, old_octets, hop_octets; cbn [length]; lia.
(* --- how far each field moves the cursor ----------------------------------------------------------------------------- *)
Lemma many_moves {A} (dec : list N -> res A) size enc b : (forall t x, dec t = Ok x -> length (enc x) = size x /\ (size x <= length t)%nat) ->
  forall n c l k, many dec size n b c = Ok (l, k) -> k = (c + length (enc_all enc l))%nat.
Proof.
  intros D. induction n as [|n IH]; intros c l k H; cbn [many] in H.
  - apply Ok_inj in H. injection H as <- <-. unfold enc_all. cbn. lia.
  - apply bind_inv in H as (t & T & H). apply bind_inv in H as (x & X & H). apply bind_inv in H as ([xs j] & M & H). apply Ok_inj in H. injection H as <- <-.
    apply D in X as (X1 & _). apply IH in M. unfold enc_all in *. cbn [map concat]. rewrite app_length. lia.
Qed.
Lemma auth_moves {A} (dec : list N -> res A) size enc T n b c o k : (forall t x, dec t = Ok x -> length (enc x) = size x /\ (size x <= length t)%nat) ->
  auth_at dec size T n b c = Ok (o, k) -> k = (c + length (V2IeD.opt_list enc o))%nat.
Proof.
  intros D. unfold auth_at. destruct (n =? 0); [intros H; apply Ok_inj in H; injection H as <- <-; none|]. destruct (n <=? 5); [|discriminate].
  intros H. apply bind_inv in H as ([l k'] & M & H). apply Ok_inj in H. injection H as <- <-. apply V2Volume.orelse_in in M. unfold V2IeD.opt_list. exact (many_moves dec size enc b D _ _ _ _ M).
Qed.
Lemma quints_moves T n b c o k : auth_at AuthQuintuplet_dec AuthQuintuplet_size T n b c = Ok (o, k) -> k = (c + length (V2IeD.opt_list AuthQuintuplet_enc o))%nat.
Proof. apply auth_moves. exact V2Volume.Quint_fit. Qed.
Lemma quads_moves T n b c o k : auth_at AuthQuadruplet_dec AuthQuadruplet_size T n b c = Ok (o, k) -> k = (c + length (V2IeD.opt_list AuthQuadruplet_enc o))%nat.
Proof. apply auth_moves. exact V2Volume.Quad_fit. Qed.
Lemma trips_moves n b c o k : trips_at n b c = Ok (o, k) -> k = (c + length (V2IeD.opt_list AuthTriplet_enc o))%nat.
Proof.
  unfold trips_at. destruct (n =? 0); [intros H; apply Ok_inj in H; injection H as <- <-; none|]. destruct (n <=? 5); [|discriminate].
  intros H. apply need_inv in H as [_ H]. revert H. apply auth_moves. exact V2Volume.Triplet_fit.
Qed.
Lemma drx_moves i b c o k : drx_at i b c = Ok (o, k) -> k = (c + length (opt_oct o))%nat.
Proof.
  unfold drx_at. destruct (i && _); intros H; [|apply Ok_inj in H; injection H as <- <-; none]. apply bind_inv in H as (s & S & H). apply Ok_inj in H. injection H as <- <-.
  apply V2Volume.slice_in in S. unfold opt_oct. lia.
Qed.
Lemma nh_moves i b c o n k : nh_at i b c = Ok (o, n, k) -> k = (c + length (hop_octets o n))%nat /\
  match n with Some j => exists h, o = Some h /\ length h = 32%nat /\ at_ (E:=GTPV2Error) b (c + 32) = Ok j | None => True end.
Proof.
  unfold nh_at. destruct (i && _); intros H; [|apply Ok_inj in H; injection H as <- <- <-; split; [none|exact I]]. apply bind_inv in H as (s & S & H). apply bind_inv in H as (x & X & H).
  apply Ok_inj in H. injection H as <- <- <-. apply V2Volume.slice_in in S. unfold hop_octets. rewrite app_length. cbn [length]. split; [lia|]. exists s. split; [reflexivity|]. split; [lia|exact X].
Qed.
Lemma ambr_moves T i b c o k : ambr_at T i b c = Ok (o, k) -> k = (c + length (opt_ambr o))%nat.
Proof.
  unfold ambr_at. destruct i; intros H; [|apply Ok_inj in H; injection H as <- <-; none]. apply need_inv in H as [_ H]. apply bind_inv in H as (t & _ & H). apply bind_inv in H as (a & _ & H).
  apply Ok_inj in H. injection H as <- <-. unfold opt_ambr, AmbrMM_enc. rewrite app_length, !enc_be_length. lia.
Qed.
Definition missing {A} (o : option A) : nat := match o with None => 1%nat | Some _ => 0%nat end.
Lemma cap_moves T b c o k : cap_at T b c = Ok (o, k) -> k = (c + length (V2IeD.opt_lv o) + missing o)%nat.
Proof.
  unfold cap_at. intros H. apply bind_inv in H as (l & _ & H). destruct (0 <? l); [|apply Ok_inj in H; injection H as <- <-; unfold V2IeD.opt_lv; cbn [length missing]; lia].
  apply bind_inv in H as ([s c'] & S & H). apply Ok_inj in H. injection H as <- <-. apply V2Volume.lv_at_in in S. unfold V2IeD.opt_lv. rewrite V2Volume.lv_size. cbn [missing]. lia.
Qed.
Lemma optlv_moves T b c o k : optlv_at T b c = Ok (o, k) -> k = (c + length (V2IeD.opt_lv o))%nat /\ (k <= length b)%nat /\ (at_ (E:=GTPV2Error) b c = Ok 0 -> o = None).
Proof.
  unfold optlv_at. intros H. apply bind_inv in H as (l & L & H). destruct (N.ltb_spec 0 l) as [Z|Z].
  - apply bind_inv in H as ([s c'] & S & H). apply Ok_inj in H. injection H as <- <-. apply V2Volume.lv_at_in in S. unfold V2IeD.opt_lv. rewrite V2Volume.lv_size.
    split; [lia|]. split; [lia|]. intros Q. rewrite L in Q. apply Ok_inj in Q. lia.
  - apply Ok_inj in H. injection H as <- <-. apply at_inv in L as [L _]. unfold V2IeD.opt_lv. cbn [length]. split; [lia|]. split; [lia|reflexivity].
Qed.
Lemma access_moves b c o k : access_at b c = Ok (o, k) -> k = (c + 1)%nat.
Proof. unfold access_at. intros H. apply bind_inv in H as (l & _ & H). apply Ok_inj in H. injection H as _ <-. reflexivity. Qed.
Lemma old_moves T i b c o k : old_at T i b c = Ok (o, k) -> k = (c + length (old_octets o))%nat.
Proof.
  unfold old_at. destruct i; intros H; [|apply Ok_inj in H; injection H as <- <-; none]. apply bind_inv in H as (t & _ & H). apply bind_inv in H as (x & X & H).
  apply Ok_inj in H. injection H as <- <-. apply V2Volume.orelse_in in X. unfold OldEpsSecurityContext_dec in X. apply bind_inv in X as (y & _ & X). cbv zeta in X.
  unfold old_octets, OldEpsSecurityContext_size.
  destruct (_ =? 0); [|destruct (_ =? 1); [|discriminate]]; apply need_inv in X as [_ X]; apply bind_inv in X as (s & S & X); apply V2Volume.slice_in in S.
  - apply Ok_inj in X. subst x. unfold OldEpsSecurityContext_enc. cbn [oe_kasme oe_next_hop oe_ncc oe_ksi is_some]. cbn [length]. rewrite app_length. cbn [length]. lia.
  - apply bind_inv in X as (s2 & S2 & X). apply V2Volume.slice_in in S2. apply Ok_inj in X. subst x. unfold OldEpsSecurityContext_enc. cbn [oe_kasme oe_next_hop oe_ncc oe_ksi is_some].
    cbn [length]. rewrite app_length. lia.
Qed.
(* the rates are read until they cannot be read *)
Lemma loop_stops : forall f b c l k, rates_loop f b c = Ok (l, k) -> k = (c + length (enc_all ApnRateControlStatusMM_enc l))%nat /\ (k <= length b)%nat /\
  exists e, ApnRateControlStatusMM_dec (skipn k b) = Err e.
Proof.
  induction f as [|f IH]; intros b c l k H; [discriminate|]. cbn [rates_loop] in H. apply bind_inv in H as (t & T & H).
  assert (L : (c <= length b)%nat /\ t = skipn c b).
  { unfold slice_from in T. destruct (Nat.leb_spec c (length b)); [|discriminate T]. apply Ok_inj in T. auto. }
  destruct (ApnRateControlStatusMM_dec t) as [x|e| |] eqn:X; try discriminate.
  - apply bind_inv in H as ([r c'] & R & H). apply Ok_inj in H. injection H as <- <-. apply IH in R as (R1 & R2 & R3). apply V2Volume.rate_fit in X. split; [|split; assumption].
    unfold enc_all in *. cbn [map concat]. rewrite app_length. lia.
  - apply Ok_inj in H. injection H as <- <-. split; [unfold enc_all; cbn; lia|]. split; [apply L|]. exists e. destruct L as [_ <-]. exact X.
Qed.
Lemma rates_moves T b c o k : rates_at T b c = Ok (o, k) -> match o with
  | None => k = c /\ (c < length b)%nat
  | Some l => k = (c + 1 + length (enc_all ApnRateControlStatusMM_enc l))%nat /\ (k <= length b)%nat /\ (exists e, ApnRateControlStatusMM_dec (skipn k b) = Err e) end /\
  (at_ (E:=GTPV2Error) b c = Ok 0 -> o = None).
Proof.
  unfold rates_at. intros H. apply bind_inv in H as (n & Hn & H). destruct (N.eqb_spec n 0) as [Z|Z].
  - apply Ok_inj in H. injection H as <- <-. split; [|reflexivity]. apply at_inv in Hn as [Hn _]. auto.
  - apply need_inv in H as [_ H]. apply bind_inv in H as ([l k'] & R & H). apply Ok_inj in H. injection H as <- <-. split.
    + apply loop_stops in R. exact R.
    + intros Q. rewrite Hn in Q. apply Ok_inj in Q. contradiction.
Qed.
Lemma ext_moves T b c o k : ext_access_at T b c = Ok (o, k) -> k = match o with Some _ => (c + 2)%nat | None => c end /\ (c + length (ext_access_enc o) <= length b)%nat.
Proof.
  unfold ext_access_at. intros H. apply bind_inv in H as (n & Hn & H). apply at_inv in Hn as [Hn _]. destruct (n =? 1).
  - apply need_inv in H as [_ H]. apply bind_inv in H as (x & Hx & H). apply Ok_inj in H. injection H as <- <-. apply at_inv in Hx as [Hx _]. cbn [ext_access_enc length]. split; [reflexivity|lia].
  - destruct (n =? 0); [|discriminate H]. apply Ok_inj in H. injection H as <- <-. cbn [ext_access_enc length]. split; [reflexivity|lia].
Qed.

(* --- one element in front of others ---------------------------------------------------------------------------------- *)
Lemma arrives_one e m after : ie_marshal e <> [] -> arrives e -> Forall (fun x => ie_wf x /\ routed x) after ->
  decode_one (decoder m) m (ie_marshal e ++ encoder after) = Ok (again e).
Proof.
  intros NE A F. specialize (A m after F). unfold encoder in *. cbn [map concat] in A. apply round in A as [A _]; [exact A|]. destruct (ie_marshal e); [congruence|discriminate].
Qed.
Lemma eventually t : exists n, forall r, (n <= length r)%nat -> exists x, ApnRateControlStatusMM_dec (t ++ next_octets ++ r) = Ok x.
Proof.
  assert (G : forall a b c d q, exists n, forall r, (n <= length r)%nat -> exists x, ApnRateControlStatusMM_dec (a :: b :: c :: d :: q ++ r) = Ok x).
  { intros a b c d q. exists (N.to_nat (be_list 0 [a; b]) + N.to_nat (be_list 0 [c; d]) + 30)%nat. intros r L. unfold ApnRateControlStatusMM_dec.
    change (be_at (a :: b :: c :: d :: q ++ r) 0 2) with (Ok (E:=GTPV2Error) (be_list 0 [a; b])).
    change (be_at (a :: b :: c :: d :: q ++ r) 2 2) with (Ok (E:=GTPV2Error) (be_list 0 [c; d])).
    remember (a :: b :: c :: d :: q ++ r) as w. assert (W : (N.to_nat (be_list 0 [a; b]) + N.to_nat (be_list 0 [c; d]) + 30 <= length w)%nat) by (subst w; cbn [length]; rewrite app_length; lia).
    clear Heqw L. revert W. generalize (be_list 0 [a; b]) (be_list 0 [c; d]). intros x y W. unfold need.
    destruct (Nat.leb_spec 2 (length w)); [|lia]. cbn [bind]. destruct (Nat.leb_spec (N.to_nat x + 2) (length w)); [|lia]. cbn [bind]. cbv zeta.
    destruct (Nat.leb_spec (N.to_nat y + 4) (length w)); [|lia]. rewrite V2CrashMm.slice_eq by lia. destruct (Nat.leb_spec (4 + N.to_nat y) (length w)); [|lia]. cbn [bind].
    destruct (Nat.leb_spec (4 + N.to_nat y + 20) (length w)); [|lia]. rewrite !V2CrashMm.be_eq.
    destruct (Nat.leb_spec (4 + N.to_nat y + 4) (length w)); [|lia]. destruct (Nat.leb_spec (4 + N.to_nat y + 4 + 4) (length w)); [|lia].
    destruct (Nat.leb_spec (4 + N.to_nat y + 8 + 4) (length w)); [|lia]. cbn [bind]. rewrite V2CrashMm.slice_eq by lia.
    destruct (Nat.leb_spec (4 + N.to_nat y + 20) (length w)); [|lia]. cbn [bind]. eauto. }
  destruct t as [|a [|b [|c [|d q]]]].
  - destruct (G 3 0 1 0 [0]) as [n H]. exists n. exact H.
  - destruct (G a 3 0 1 [0; 0]) as [n H]. exists n. exact H.
  - destruct (G a b 3 0 [1; 0; 0]) as [n H]. exists n. exact H.
  - destruct (G a b c 3 [0; 1; 0; 0]) as [n H]. exists n. exact H.
  - destruct (G a b c d (q ++ next_octets)) as [n H]. exists n. intros r L. destruct (H r L) as [x X]. exists x. rewrite <- X. cbn [app]. rewrite app_assoc. reflexivity.
Qed.
(* behind an element that arrives there can be so many others that one more rate can be read *)
Lemma arrives_crowd e m t : ie_marshal e <> [] -> arrives e -> exists r x,
  decode_one (decoder m) m (ie_marshal e ++ r) = Ok (again e) /\ ApnRateControlStatusMM_dec (t ++ r) = Ok x.
Proof.
  intros NE A. destruct (eventually t) as [n H]. set (after := next :: repeat next n).
  assert (F : Forall (fun x => ie_wf x /\ routed x) after).
  { constructor; [exact next_ok|]. apply Forall_forall. intros x I. apply repeat_spec in I. subst x. exact next_ok. }
  exists (encoder after). assert (L : (n <= length (encoder (repeat next n)))%nat).
  { clear. induction n as [|n IH]; [apply Nat.le_0_l|]. unfold encoder in *. cbn [repeat map concat]. rewrite app_length. change (length (ie_marshal next)) with 5%nat. lia. }
  destruct (H _ L) as [x X]. exists x. split; [exact (arrives_one e m after NE A F)|exact X].
Qed.

(* --- the kinds --------------------------------------------------------------------------------------------------------- *)
Ltac moved := match goal with
  | H : auth_at AuthQuintuplet_dec _ _ _ _ _ = Ok (_, _) |- _ => apply quints_moves in H
  | H : auth_at AuthQuadruplet_dec _ _ _ _ _ = Ok (_, _) |- _ => apply quads_moves in H
  | H : trips_at _ _ _ = Ok (_, _) |- _ => apply trips_moves in H
  | H : drx_at _ _ _ = Ok (_, _) |- _ => apply drx_moves in H
  | H : ambr_at _ _ _ _ = Ok (_, _) |- _ => apply ambr_moves in H
  | H : cap_at _ _ _ = Ok (_, _) |- _ => apply cap_moves in H
  | H : access_at _ _ = Ok (_, _) |- _ => apply access_moves in H
  | H : old_at _ _ _ _ = Ok (_, _) |- _ => apply old_moves in H
  end.
Ltac walk D := repeat match type of D with
  | bind (at_ _ _) _ = _ => apply bind_inv in D as (? & ? & D)
  | bind (be_at _ _ _) _ = _ => apply bind_inv in D as (? & _ & D)
  | bind (slice _ _ _) _ = _ => let S := fresh "S" in apply bind_inv in D as (? & S & D); apply V2Volume.slice_in in S as [_ S]
  | bind (nh_at _ _ _) _ = _ => apply bind_inv in D as ([[? ?] ?] & ? & D)
  | bind (ensct_at _ _) _ = _ => apply bind_inv in D as (? & ? & D)
  | bind _ _ = _ => let M := fresh "M" in apply bind_inv in D as ([? ?] & M & D); try moved
  end.

Lemma GsmT_room m b i : MmContextGsmKeyTriplets_unmarshal m b = Ok i -> let v := ie_v i in
  (4 + length (MmContextGsmKeyTriplets_value v) + (missing (t_ue v) + missing (t_ms v) + missing (t_mei v)) <= length b)%nat.
Proof.
  unfold MmContextGsmKeyTriplets_unmarshal. intros D. apply need_inv in D as [_ D]. apply V2Volume.hdr4_in in D as (? & ? & D). walk D.
  apply Ok_inj in D. subst i. cbv zeta. cbn [ie_v std]. apply optlv_moves in M7 as (M7 & M8 & _). unfold MmContextGsmKeyTriplets_value.
  cbn [t_sec t_cksn t_ciph t_kc t_trips t_drx t_sambr t_uambr t_ue t_ms t_mei t_access t_vdn]. rewrite !app_length, enc_be_length. cbn [length]. lia.
Qed.
Lemma none_missing {A} (o : option A) : missing o = 0%nat -> there o.
Proof. destruct o; [discriminate|cbn; lia]. Qed.
Ltac arrived D dsp mar := unfold ie_marshal, MmContext_marshal, mar, marshal_ie in D; rewrite tliv_eq in D; cbn [app] in D; rewrite dsp in D by reflexivity;
  apply lift_inv in D as (? & D & EQ); cbn [again Mm_again] in EQ; injection EQ as <-;
  unfold MmContext_unmarshal in D; apply bind_inv in D as (? & T0 & D); apply Ok_inj in T0; subst; cbn [N.eqb Pos.eqb] in D; apply bind_inv in D as (? & D & EQ);
  apply Ok_inj in EQ; injection EQ as ->.
Lemma gsmt_exact x m : decode_one (decoder m) m (ie_marshal (IE_MmContext (MmGsmT x))) = Ok (again (IE_MmContext (MmGsmT x))) -> mm_survives (MmGsmT x).
Proof.
  intros D. arrived D disp_103 MmContextGsmKeyTriplets_marshal. apply GsmT_room in D. cbv zeta in D. unfold true_length in D. cbn [ie_v length] in D.
  cbn [mm_survives]. cbv zeta. repeat split; apply none_missing; lia.
Qed.

(* the last fields, read s octets too late *)
Lemma at_tail p t s x : at_ (E:=GTPV2Error) (p ++ t) (length p + s) = Ok x -> nth_error t s = Some x.
Proof. intros H. apply at_inv in H as [_ H]. rewrite nth_error_app2 in H by lia. replace (length p + s - length p)%nat with s in H by lia. exact H. Qed.
Lemma higher_tail p t s h c : higher_at (p ++ t) (length p + s) = Ok (h, c) -> exists l d, nth_error t s = Some l /\ c = (length p + d)%nat /\
  ((s + 1 + N.to_nat l <= length t)%nat /\ d = (s + 1 + N.to_nat l)%nat /\ (exists x, nth_error t (s + 1) = Some x /\ h = (x =? 1)) \/
   (length t < s + 1 + N.to_nat l)%nat /\ d = (s + 1)%nat /\ h = false).
Proof.
  unfold higher_at. intros H. apply bind_inv in H as (l & L & H). apply at_tail in L. cbv zeta in H. exists l. rewrite app_length in H.
  destruct (Nat.leb_spec (length p + s + 1 + N.to_nat l) (length p + length t)) as [Z|Z].
  - apply bind_inv in H as (x & X & H). apply Ok_inj in H. injection H as <- <-. replace (length p + s + 1)%nat with (length p + (s + 1))%nat in X by lia. apply at_tail in X.
    exists (s + 1 + N.to_nat l)%nat. split; [exact L|]. split; [lia|]. left. split; [lia|]. split; [reflexivity|]. eauto.
  - apply Ok_inj in H. injection H as <- <-. exists (s + 1)%nat. split; [exact L|]. split; [lia|]. right. split; [lia|]. split; reflexivity.
Qed.
Lemma iov_tail T f p t d o k : iov_at T f (p ++ t) (length p + d) = Ok (o, k) -> o = nth_error t d /\ o <> None /\ k = (length p + (d + 1))%nat.
Proof.
  unfold iov_at. destruct (_ && _); [|discriminate]. intros H. apply bind_inv in H as (x & X & H). apply Ok_inj in H. injection H as <- <-. apply at_tail in X. rewrite X.
  split; [reflexivity|]. split; [discriminate|lia].
Qed.
Lemma gsmcq_tail p h s c : higher_at (p ++ V2IeD.higher_enc h) (length p + s) = Ok (h, c) -> s = 0%nat /\ h = true.
Proof.
  intros H. apply higher_tail in H as (l & d & L & _ & H). destruct h; cbn [V2IeD.higher_enc length] in *.
  - destruct s as [|[|s]]; [auto| |destruct s; discriminate L]. cbn [nth_error] in L. injection L as <-. destruct H as [[H _]|(_ & _ & H)]; [cbn in H; lia|discriminate H].
  - destruct s as [|s]; [|destruct s; discriminate L]. cbn [nth_error] in L. injection L as <-. destruct H as [(_ & _ & x & X & _)|(H & _)]; [discriminate X|cbn in H; lia].
Qed.
Lemma umtscq_tail T f p h o s c k : higher_at (p ++ V2IeD.higher_enc h ++ match o with Some i => [i] | None => [] end) (length p + s) = Ok (h, c) ->
  iov_at T f (p ++ V2IeD.higher_enc h ++ match o with Some i => [i] | None => [] end) c = Ok (o, k) -> s = 0%nat /\ (h = false -> o <> Some 1).
Proof.
  intros H V. apply higher_tail in H as (l & d & L & -> & H). apply iov_tail in V as (V & O & _). destruct o as [i|]; [|congruence]. clear O. symmetry in V.
  assert (D : (d < length (V2IeD.higher_enc h ++ [i]))%nat) by (apply nth_error_Some; rewrite V; discriminate).
  destruct h; cbn [V2IeD.higher_enc app length] in *.
  - split; [|discriminate]. destruct s as [|[|[|s]]]; [reflexivity| | |destruct s; discriminate L]; cbn [nth_error Nat.add] in *; injection L as <-;
      destruct H as [(H1 & H2 & x & X & H3)|(_ & _ & H)]; try discriminate H; [cbn in H2; lia|discriminate X].
  - destruct s as [|[|s]]; [| |destruct s; discriminate L]; cbn [nth_error Nat.add] in *; injection L as <-.
    + split; [reflexivity|]. intros _ E. injection E as ->. destruct H as [(_ & _ & x & X & H)|(H & _)]; [injection X as <-; discriminate H|cbn in H; lia].
    + exfalso. destruct H as [(_ & _ & x & X & _)|(_ & -> & _)]; [discriminate X|lia].
Qed.
Lemma umtsq_tail T f p h o e s c k j : let t := V2IeD.higher_enc h ++ match o with Some i => [i] | None => [] end ++ ext_access_enc e in
  higher_at (p ++ t) (length p + s) = Ok (h, c) -> iov_at T f (p ++ t) c = Ok (o, k) -> ext_access_at T (p ++ t) k = Ok (e, j) -> s = 0%nat /\ (h = false -> o <> Some 1).
Proof.
  cbv zeta. intros H V X. apply higher_tail in H as (l & d & L & -> & H). apply iov_tail in V as (V & O & ->). destruct o as [i|]; [|congruence]. clear O. symmetry in V.
  apply ext_moves in X as [_ X]. rewrite !app_length in X. assert (D : (d + 1 <= length (V2IeD.higher_enc h ++ [i]))%nat) by (rewrite app_length; cbn [length] in *; lia). clear X.
  destruct h; cbn [V2IeD.higher_enc app length] in *.
  - split; [|discriminate]. destruct s as [|[|[|s]]]; cbn [nth_error Nat.add] in *; [reflexivity| | | ].
    + injection L as <-. destruct H as [(H1 & H2 & x & X & H3)|(_ & _ & H)]; try discriminate H. cbn in H2. lia.
    + injection L as <-. exfalso. destruct H as [(H1 & H2 & x & X & H3)|(_ & _ & H)]; try discriminate H. lia.
    + exfalso. destruct H as [(_ & H & _)|(_ & _ & H)]; [lia|discriminate H].
  - destruct s as [|[|s]]; cbn [nth_error Nat.add] in *; [injection L as <-| |].
    + split; [reflexivity|]. intros _ E. injection E as ->. destruct H as [(_ & _ & x & X & H)|(H & _)]; [injection X as <-; discriminate H|cbn in H; lia].
    + exfalso. injection L as <-. destruct H as [(_ & H & _)|(_ & -> & _)]; lia.
    + exfalso. destruct H as [(_ & H & _)|(_ & -> & _)]; lia.
Qed.

Definition gsmcq_pre (v : mm_gsm_cq) : list N :=
  [ mm_first (g_sec v) (is_some (g_drx v)) (g_cksn v);
    N.lor (shl8 (opt_count (g_quints v)) 5) (ambr_flags (is_some (g_uambr v)) (is_some (g_sambr v)));
    CipherValues_to (g_ciph v) ]
  ++ enc_be 8 (g_kc v) ++ V2IeD.opt_list AuthQuintuplet_enc (g_quints v) ++ opt_oct (g_drx v)
  ++ opt_ambr (g_sambr v) ++ opt_ambr (g_uambr v)
  ++ V2IeD.opt_lv (g_ue v) ++ V2IeD.opt_lv (g_ms v) ++ V2IeD.opt_lv (g_mei v)
  ++ [AccessRestrictionMM_to (g_access v)] ++ V2IeD.opt_lv (g_vdn v).
Lemma GsmCq_shape m b i : MmContextGsmKeyCipherQuintuplets_unmarshal m b = Ok i -> let v := ie_v i in exists k,
  higher_at b (4 + length (gsmcq_pre v) + (missing (g_ue v) + missing (g_ms v) + missing (g_mei v))) = Ok (g_higher v, k).
Proof.
  unfold MmContextGsmKeyCipherQuintuplets_unmarshal. intros D. apply need_inv in D as [_ D]. apply V2Volume.hdr4_in in D as (? & ? & D). walk D.
  apply Ok_inj in D. subst i. cbv zeta. cbn [ie_v std]. apply optlv_moves in M7 as (M7 & _ & _). unfold gsmcq_pre.
  cbn [g_sec g_cksn g_ciph g_kc g_quints g_drx g_sambr g_uambr g_ue g_ms g_mei g_access g_vdn g_higher]. eexists. etransitivity; [|exact M8]. f_equal. rewrite !app_length, enc_be_length. cbn [length]. lia.
Qed.
Lemma gsmcq_exact x m : decode_one (decoder m) m (ie_marshal (IE_MmContext (MmGsmCq x))) = Ok (again (IE_MmContext (MmGsmCq x))) -> mm_survives (MmGsmCq x).
Proof.
  intros D. arrived D disp_105 MmContextGsmKeyCipherQuintuplets_marshal. apply GsmCq_shape in D as [k D]. unfold true_length in D. cbn [ie_v length] in D.
  set (v := ie_v x) in *. replace (MmContextGsmKeyCipherQuintuplets_value v) with (gsmcq_pre v ++ V2IeD.higher_enc (g_higher v)) in D
    by (unfold gsmcq_pre, MmContextGsmKeyCipherQuintuplets_value; rewrite <- !app_assoc; reflexivity).
  match type of D with higher_at (?a :: ?b :: ?c :: ?d :: gsmcq_pre v ++ _) _ = _ => apply (gsmcq_tail (a :: b :: c :: d :: gsmcq_pre v)) in D as [D H] end.
  cbn [mm_survives]. cbv zeta. fold v. repeat split; try (apply none_missing; lia). exact H.
Qed.
Definition umtscq_pre (v : mm_umts_cq) : list N :=
  [ mm_first (c_sec v) (is_some (c_drx v)) (c_ksi v);
    umts_second (c_quints v) (is_some (c_iov v)) (c_gupii v) (is_some (c_int v)) (is_some (c_uambr v)) (is_some (c_sambr v));
    umts_third (c_int v) (c_ciph v) ]
  ++ c_ck v ++ c_ik v ++ V2IeD.opt_list AuthQuintuplet_enc (c_quints v) ++ opt_oct (c_drx v)
  ++ opt_ambr (c_sambr v) ++ opt_ambr (c_uambr v)
  ++ V2IeD.opt_lv (c_ue v) ++ V2IeD.opt_lv (c_ms v) ++ V2IeD.opt_lv (c_mei v)
  ++ [AccessRestrictionMM_to (c_access v)] ++ V2IeD.opt_lv (c_vdn v).
Lemma UmtsCq_shape m b i : MmContextUmtsKeyCipherQuintuplets_unmarshal m b = Ok i -> let v := ie_v i in exists c f k,
  higher_at b (4 + length (umtscq_pre v) + (missing (c_ue v) + missing (c_ms v) + missing (c_mei v) + missing (c_vdn v))) = Ok (c_higher v, c) /\
  iov_at 104 f b c = Ok (c_iov v, k).
Proof.
  unfold MmContextUmtsKeyCipherQuintuplets_unmarshal. intros D. apply need_inv in D as [_ D]. apply V2Volume.hdr4_in in D as (? & ? & D). walk D.
  apply Ok_inj in D. subst i. cbv zeta. cbn [ie_v std]. unfold umtscq_pre.
  cbn [c_sec c_ksi c_ciph c_int c_gupii c_ck c_ik c_quints c_drx c_sambr c_uambr c_ue c_ms c_mei c_access c_vdn c_higher c_iov].
  do 3 eexists. split; [etransitivity; [|exact M8]|exact M9]. f_equal. rewrite !app_length. cbn [length]. lia.
Qed.
Lemma umtscq_exact x m : decode_one (decoder m) m (ie_marshal (IE_MmContext (MmUmtsCq x))) = Ok (again (IE_MmContext (MmUmtsCq x))) -> mm_survives (MmUmtsCq x).
Proof.
  intros D. arrived D disp_104 MmContextUmtsKeyCipherQuintuplets_marshal. apply UmtsCq_shape in D as (c & f & k & D & V). unfold true_length in D, V. cbn [ie_v length] in D, V.
  set (v := ie_v x) in *. replace (MmContextUmtsKeyCipherQuintuplets_value v) with (umtscq_pre v ++ V2IeD.higher_enc (c_higher v) ++ match c_iov v with Some i => [i] | None => [] end) in D, V
    by (unfold umtscq_pre, MmContextUmtsKeyCipherQuintuplets_value; rewrite <- !app_assoc; reflexivity).
  match type of D with higher_at (?a :: ?b :: ?c :: ?d :: umtscq_pre v ++ _) _ = _ => destruct (umtscq_tail _ _ (a :: b :: c :: d :: umtscq_pre v) _ _ _ _ _ D V) as [Z H] end.
  cbn [mm_survives]. cbv zeta. fold v. repeat split; try (apply none_missing; lia). exact H.
Qed.
Definition umtsq_pre (v : mm_umts_q) : list N :=
  [ mm_first (q_sec v) (is_some (q_drx v)) (q_ksi v);
    umts_second (q_quints v) (is_some (q_iov v)) (q_gupii v) (is_some (q_int v)) (is_some (q_uambr v)) (is_some (q_sambr v));
    umts_third (q_int v) (q_ciph v) ]
  ++ q_ck v ++ q_ik v ++ V2IeD.opt_list AuthQuintuplet_enc (q_quints v) ++ opt_oct (q_drx v)
  ++ opt_ambr (q_sambr v) ++ opt_ambr (q_uambr v)
  ++ V2IeD.opt_lv (q_ue v) ++ V2IeD.opt_lv (q_ms v) ++ V2IeD.opt_lv (q_mei v)
  ++ [AccessRestrictionMM_to (q_access v)] ++ V2IeD.opt_lv (q_vdn v).
Lemma UmtsQ_shape m b i : MmContextUmtsKeyQuintuplets_unmarshal m b = Ok i -> let v := ie_v i in exists c f k j,
  higher_at b (4 + length (umtsq_pre v) + (missing (q_ue v) + missing (q_ms v) + missing (q_mei v) + missing (q_vdn v))) = Ok (q_higher v, c) /\
  iov_at 106 f b c = Ok (q_iov v, k) /\ ext_access_at 106 b k = Ok (q_ext v, j).
Proof.
  unfold MmContextUmtsKeyQuintuplets_unmarshal. intros D. apply need_inv in D as [_ D]. apply V2Volume.hdr4_in in D as (? & ? & D). walk D.
  apply Ok_inj in D. subst i. cbv zeta. cbn [ie_v std]. unfold umtsq_pre.
  cbn [q_sec q_ksi q_ciph q_int q_gupii q_ck q_ik q_quints q_drx q_sambr q_uambr q_ue q_ms q_mei q_access q_vdn q_higher q_iov q_ext].
  do 4 eexists. split; [etransitivity; [|exact M8]|split; [exact M9|exact M10]]. f_equal. rewrite !app_length. cbn [length]. lia.
Qed.
Lemma umtsq_exact x m : decode_one (decoder m) m (ie_marshal (IE_MmContext (MmUmtsQ x))) = Ok (again (IE_MmContext (MmUmtsQ x))) -> mm_survives (MmUmtsQ x).
Proof.
  intros D. arrived D disp_106 MmContextUmtsKeyQuintuplets_marshal. apply UmtsQ_shape in D as (c & f & k & j & D & V & X). unfold true_length in D, V, X. cbn [ie_v length] in D, V, X.
  set (v := ie_v x) in *. replace (MmContextUmtsKeyQuintuplets_value v) with (umtsq_pre v ++ V2IeD.higher_enc (q_higher v) ++ match q_iov v with Some i => [i] | None => [] end ++ ext_access_enc (q_ext v)) in D, V, X
    by (unfold umtsq_pre, MmContextUmtsKeyQuintuplets_value; rewrite <- !app_assoc; reflexivity).
  match type of D with higher_at (?a :: ?b :: ?c :: ?d :: umtsq_pre v ++ _) _ = _ => destruct (umtsq_tail _ _ (a :: b :: c :: d :: umtsq_pre v) _ _ _ _ _ _ _ D V X) as [Z H] end.
  cbn [mm_survives]. cbv zeta. fold v. repeat split; try (apply none_missing; lia). exact H.
Qed.
Definition umtsqq_pre (v : mm_umts_qq) : list N :=
  [ mm_first (d_sec v) (is_some (d_drx v)) (d_ksi v);
    N.lor (N.lor (shl8 (opt_count (d_quints v)) 5) (shl8 (opt_count (d_quads v)) 2))
      (ambr_flags (is_some (d_uambr v)) (is_some (d_sambr v)));
    0 ]
  ++ d_ck v ++ d_ik v ++ V2IeD.opt_list AuthQuadruplet_enc (d_quads v) ++ V2IeD.opt_list AuthQuintuplet_enc (d_quints v)
  ++ opt_oct (d_drx v) ++ opt_ambr (d_sambr v) ++ opt_ambr (d_uambr v)
  ++ V2IeD.opt_lv (d_ue v) ++ V2IeD.opt_lv (d_ms v) ++ V2IeD.opt_lv (d_mei v)
  ++ [AccessRestrictionMM_to (d_access v)] ++ V2IeD.opt_lv (d_vdn v).
Lemma UmtsQq_shape m b i : MmContextUmtsKeyQuadrupletsQuintuplets_unmarshal m b = Ok i -> let v := ie_v i in exists k,
  rates_at 108 b (4 + length (umtsqq_pre v) + (missing (d_ue v) + missing (d_ms v) + missing (d_mei v))) = Ok (d_rates v, k).
Proof.
  unfold MmContextUmtsKeyQuadrupletsQuintuplets_unmarshal. intros D. apply need_inv in D as [_ D]. apply V2Volume.hdr4_in in D as (? & ? & D). walk D.
  apply Ok_inj in D. subst i. cbv zeta. cbn [ie_v std]. apply optlv_moves in M8 as (M8 & _ & _). unfold umtsqq_pre.
  cbn [d_sec d_ksi d_ck d_ik d_quads d_quints d_drx d_sambr d_uambr d_ue d_ms d_mei d_access d_vdn d_rates].
  eexists. etransitivity; [|exact M9]. f_equal. rewrite !app_length. cbn [length]. lia.
Qed.
Lemma umtsqq_exact x : arrives (IE_MmContext (MmUmtsQq x)) -> mm_survives (MmUmtsQq x).
Proof.
  intros A. assert (NE : ie_marshal (IE_MmContext (MmUmtsQq x)) <> []) by discriminate. destruct (arrives_says _ Debug NE A) as (D & _ & _).
  arrived D disp_108 MmContextUmtsKeyQuadrupletsQuintuplets_marshal. apply UmtsQq_shape in D as [k D]. unfold true_length in D. cbn [ie_v] in D.
  set (v := ie_v x) in *. assert (V : MmContextUmtsKeyQuadrupletsQuintuplets_value v = umtsqq_pre v ++ rates_enc (d_rates v))
    by (unfold umtsqq_pre, MmContextUmtsKeyQuadrupletsQuintuplets_value; rewrite <- !app_assoc; reflexivity).
  apply rates_moves in D as [D _]. rewrite V in D. cbn [length] in D. rewrite !app_length in D. cbn [mm_survives]. cbv zeta. fold v. destruct (d_rates v) as [l|] eqn:R.
  - exfalso. cbn [rates_enc length] in D. assert (Z : (missing (d_ue v) + missing (d_ms v) + missing (d_mei v) = 0)%nat) by lia. clear D.
    destruct (arrives_crowd _ Debug [] NE A) as (r & y & D & Y).
    arrived D disp_108 MmContextUmtsKeyQuadrupletsQuintuplets_marshal. apply UmtsQq_shape in D as [j D]. unfold true_length in D. cbn [ie_v] in D. fold v in D. rewrite V, Z, R in D.
    apply rates_moves in D as [(-> & _ & e & E) _]. cbn [app] in Y.
    match type of E with ApnRateControlStatusMM_dec (skipn ?n ?w) = _ => assert (Q : skipn n w = r) end.
    { match goal with |- skipn ?n (?a :: ?b :: ?c :: ?d :: (?q ++ ?t) ++ r) = r => apply (skipn_app_exact (a :: b :: c :: d :: q ++ t) r n) end.
      cbn [rates_enc length]. rewrite app_length. cbn [length]. lia. }
    rewrite Q, Y in E. discriminate E.
  - cbn [rates_enc length] in D. repeat split; apply none_missing; lia.
Qed.

(* EPS contexts *)
Definition eps_start (v : mm_eps) : list N :=
  [ N.lor (N.lor (N.lor (shl8 (SecurityMode_to (e_sec v)) 5) (flag (is_some (e_nh v)) 16))
      (flag (is_some (e_drx v)) 8)) (N.land (e_ksi v) 7);
    N.lor (N.lor (shl8 (opt_count (e_quints v)) 5) (shl8 (opt_count (e_quads v)) 2))
      (flag (is_some (e_uambr v)) 2 + flag (is_some (e_old v)) 1);
    N.lor (flag (is_some (e_sambr v)) 128)
      (N.lor (shl8 (NasIntegrityProtectionValues_to (e_int v)) 4) (NasCipherValues_to (e_ciph v))) ]
  ++ enc_be 3 (e_dl v) ++ enc_be 3 (e_ul v) ++ e_kasme v
  ++ V2IeD.opt_list AuthQuadruplet_enc (e_quads v) ++ V2IeD.opt_list AuthQuintuplet_enc (e_quints v)
  ++ opt_oct (e_drx v).
Definition eps_middle (v : mm_eps) : list N :=
  opt_ambr (e_sambr v) ++ opt_ambr (e_uambr v)
  ++ V2IeD.opt_lv (e_ue v) ++ V2IeD.opt_lv (e_ms v) ++ V2IeD.opt_lv (e_mei v)
  ++ [AccessRestrictionMM_to (e_access v)] ++ old_octets (e_old v)
  ++ V2IeD.opt_lv (e_vdn v) ++ V2IeD.opt_lv (e_radio v).
Definition eps_end (v : mm_eps) : list N :=
  V2IeD.opt_lv (e_core v) ++ V2IeD.opt_lv (e_radioid v) ++ match e_ensct v with Some i => [i] | None => [] end.
Lemma eps_value v : MmContextEpsSecurityContextQuadruplets_value v =
  eps_start v ++ hop_octets (e_nh v) (e_ncc v) ++ eps_middle v ++ ext_access_enc (e_ext v) ++ V2IeD.opt_lv (e_addsec v) ++ V2IeD.opt_lv (e_nrsec v) ++ rates_enc (e_rates v) ++ eps_end v.
Proof. unfold MmContextEpsSecurityContextQuadruplets_value, eps_start, eps_middle, eps_end, hop_octets, old_octets. rewrite <- !app_assoc. reflexivity. Qed.
Lemma Eps_shape m b i : MmContextEpsSecurityContextQuadruplets_unmarshal m b = Ok i -> let v := ie_v i in
  match e_ncc v with Some j => exists h, e_nh v = Some h /\ length h = 32%nat /\ at_ (E:=GTPV2Error) b (4 + length (eps_start v) + 32) = Ok j | None => True end /\
  exists k1 k2 k3 k4 k5 k6,
  ext_access_at 107 b (4 + length (eps_start v ++ hop_octets (e_nh v) (e_ncc v) ++ eps_middle v) + (missing (e_ue v) + missing (e_ms v) + missing (e_mei v))) = Ok (e_ext v, k1) /\
  optlv_at 107 b k1 = Ok (e_addsec v, k2) /\ optlv_at 107 b k2 = Ok (e_nrsec v, k3) /\ rates_at 107 b k3 = Ok (e_rates v, k4) /\
  optlv_at 107 b k4 = Ok (e_core v, k5) /\ optlv_at 107 b k5 = Ok (e_radioid v, k6) /\ ensct_at b k6 = Ok (e_ensct v).
Proof.
  unfold MmContextEpsSecurityContextQuadruplets_unmarshal. intros D. apply need_inv in D as [_ D]. apply V2Volume.hdr4_in in D as (? & ? & D). walk D.
  apply Ok_inj in D. subst i. cbv zeta. cbn [ie_v std].
  repeat match goal with H : optlv_at _ _ _ = Ok (?o, _) |- _ => lazymatch goal with K : _ = (_ + length (V2IeD.opt_lv o))%nat |- _ => fail | _ => pose proof (proj1 (optlv_moves _ _ _ _ _ H)) end end.
  match goal with H : nh_at _ _ _ = Ok _ |- _ => apply nh_moves in H as [HM HN] end. unfold eps_start, eps_middle.
  cbn [e_sec e_ksi e_int e_ciph e_dl e_ul e_kasme e_quads e_quints e_drx e_nh e_ncc e_sambr e_uambr e_ue e_ms e_mei e_access e_old e_vdn e_radio e_ext e_addsec e_nrsec e_rates e_core e_radioid e_ensct].
  split.
  - match goal with |- match ?n with Some _ => _ | None => _ end => destruct n as [j|]; [|exact Logic.I] end. destruct HN as (h & -> & Hh & Hj). exists h. split; [reflexivity|]. split; [exact Hh|].
    rewrite <- Hj. f_equal. rewrite !app_length, !enc_be_length. cbn [length]. lia.
  - do 6 eexists. repeat match goal with |- _ /\ _ => split end; [etransitivity; [|eassumption]|eassumption..]. f_equal. rewrite !app_length, !enc_be_length. cbn [length]. lia.
Qed.
Lemma none_octet : V2IeD.opt_lv None = [0].
Proof. reflexivity. Qed.
Lemma eps_tail T p x a n rs co ri en r k1 k2 k3 k4 k5 k6 :
  let b := p ++ ext_access_enc x ++ V2IeD.opt_lv a ++ V2IeD.opt_lv n ++ rates_enc rs ++ (V2IeD.opt_lv co ++ V2IeD.opt_lv ri ++ match en with Some i => [i] | None => [] end) ++ r in
  ext_access_at T b (length p) = Ok (x, k1) -> optlv_at T b k1 = Ok (a, k2) -> optlv_at T b k2 = Ok (n, k3) -> rates_at T b k3 = Ok (rs, k4) ->
  optlv_at T b k4 = Ok (co, k5) -> optlv_at T b k5 = Ok (ri, k6) -> ensct_at b k6 = Ok en ->
  (x <> None \/ a = None /\ n = None) /\
  match rs with
  | Some _ => exists e, ApnRateControlStatusMM_dec ((V2IeD.opt_lv co ++ V2IeD.opt_lv ri ++ match en with Some i => [i] | None => [] end) ++ r) = Err e
  | None => co = None /\ ri = None /\ en = Some 0 end.
Proof.
  cbv zeta. set (b := p ++ _). intros X A N0 R C I0 HS. apply ext_moves in X as [X _]. apply optlv_moves in A as (A & _ & A0). apply optlv_moves in N0 as (N1 & _ & N0).
  apply rates_moves in R as [R R0]. apply optlv_moves in C as (C & _ & C0). apply optlv_moves in I0 as (I1 & _ & I0).
  assert (P0 : at_pos b (length p) (ext_access_enc x ++ V2IeD.opt_lv a ++ V2IeD.opt_lv n ++ rates_enc rs ++ (V2IeD.opt_lv co ++ V2IeD.opt_lv ri ++ match en with Some i => [i] | None => [] end) ++ r)) by apply at_pos_start.
  assert (Z : forall k, at_ (E:=GTPV2Error) b k = Ok 0 -> ensct_at b k = Ok en -> en = Some 0).
  { intros k K E. unfold ensct_at in E. destruct (k <=? length b)%nat eqn:Q; [|apply at_inv in K as [K _]; apply Nat.leb_gt in Q; lia]. rewrite K in E. cbn [bind] in E. apply Ok_inj in E. subst en. reflexivity. }
  destruct x as [x|].
  - split; [left; discriminate|]. apply at_pos_next in P0. cbn [ext_access_enc length] in P0. rewrite <- X in P0. apply at_pos_next in P0. rewrite <- A in P0. apply at_pos_next in P0. rewrite <- N1 in P0.
    destruct rs as [l|].
    + destruct R as (R & _ & e & E). exists e. apply at_pos_next in P0. cbn [rates_enc length] in P0. replace (k3 + S (length (enc_all ApnRateControlStatusMM_enc l)))%nat with k4 in P0 by lia.
      destruct P0 as (q & Q & K). rewrite Q in E. rewrite skipn_app_exact in E by exact K. exact E.
    + destruct R as [-> _]. cbn [rates_enc app] in P0. pose proof (C0 (at_pos_at _ _ _ _ P0)) as CN. rewrite CN, none_octet in *. clear C0. apply at_pos_cons in P0. cbn [length app] in C, P0. rewrite <- C in P0.
      pose proof (I0 (at_pos_at _ _ _ _ P0)) as IN. rewrite IN, none_octet in *. clear I0. apply at_pos_cons in P0. cbn [length app] in I1, P0. rewrite <- I1 in P0.
      split; [reflexivity|]. split; [reflexivity|]. exact (Z _ (at_pos_at _ _ _ _ P0) HS).
  - subst k1. cbn [ext_access_enc app] in P0. pose proof (A0 (at_pos_at _ _ _ _ P0)) as AN. rewrite AN, none_octet in *. clear A0. apply at_pos_cons in P0. cbn [length app] in A, P0. rewrite <- A in P0.
    pose proof (N0 (at_pos_at _ _ _ _ P0)) as NN. rewrite NN, none_octet in *. clear N0. apply at_pos_cons in P0. cbn [length app] in N1, P0. rewrite <- N1 in P0.
    split; [right; auto|]. pose proof (R0 (at_pos_at _ _ _ _ P0)) as RN. rewrite RN in *. clear R0. destruct R as [-> _].
    pose proof (C0 (at_pos_at _ _ _ _ P0)) as CN. rewrite CN, none_octet in *. clear C0. apply at_pos_cons in P0. cbn [length app] in C, P0. rewrite <- C in P0. cbn [rates_enc app] in P0.
    pose proof (I0 (at_pos_at _ _ _ _ P0)) as IN. rewrite IN, none_octet in *. clear I0. apply at_pos_cons in P0. cbn [length app] in I1, P0. rewrite <- I1 in P0.
    split; [reflexivity|]. split; [reflexivity|]. exact (Z _ (at_pos_at _ _ _ _ P0) HS).
Qed.
Definition capable (x : MmContext) : Prop :=
  match x with MmEps i => there (e_ue (ie_v i)) /\ there (e_ms (ie_v i)) /\ there (e_mei (ie_v i)) | _ => True end.
Lemma there_none {A} (o : option A) : there o -> missing o = 0%nat.
Proof. intros H. destruct o; [reflexivity|]. contradiction H. reflexivity. Qed.
Lemma eps_exact x : capable (MmEps x) -> arrives (IE_MmContext (MmEps x)) -> mm_survives (MmEps x).
Proof.
  intros (U1 & U2 & U3) A. assert (NE : ie_marshal (IE_MmContext (MmEps x)) <> []) by discriminate.
  destruct (arrives_crowd _ Debug (eps_end (ie_v x)) NE A) as (r & y & D & Y).
  arrived D disp_107 MmContextEpsSecurityContextQuadruplets_marshal. apply Eps_shape in D. unfold true_length in D. cbn [ie_v] in D.
  set (v := ie_v x) in *. rewrite (there_none _ U1), (there_none _ U2), (there_none _ U3), Nat.add_0_r, eps_value in D.
  destruct D as (HN & k1 & k2 & k3 & k4 & k5 & k6 & D1 & D2 & D3 & D4 & D5 & D6 & D7).
  match type of D1 with ext_access_at _ (?a :: ?b :: ?c :: ?d :: ?w) _ = _ => set (p := a :: b :: c :: d :: eps_start v ++ hop_octets (e_nh v) (e_ncc v) ++ eps_middle v) in *;
    assert (Q : a :: b :: c :: d :: w = p ++ ext_access_enc (e_ext v) ++ V2IeD.opt_lv (e_addsec v) ++ V2IeD.opt_lv (e_nrsec v) ++ rates_enc (e_rates v) ++ eps_end v ++ r)
      by (unfold p; cbn [app]; rewrite <- !app_assoc; reflexivity); rewrite Q in *; clear Q end.
  destruct (eps_tail 107 p _ _ _ _ _ _ _ r _ _ _ _ _ _ D1 D2 D3 D4 D5 D6 D7) as [T1 T2].
  cbn [mm_survives]. cbv zeta. fold v. repeat match goal with |- _ /\ _ => split end; try assumption.
  - destruct (e_ncc v) as [j|] eqn:J; [|exact Logic.I]. destruct HN as (h & Hh & L & E). unfold p in E. cbn [app] in E. rewrite Hh in E. unfold hop_octets in E.
    match type of E with at_ (?a :: ?b :: ?c :: ?d :: ?w) _ = _ => change (a :: b :: c :: d :: w) with ([a; b; c; d] ++ w) in E end. apply at_inv in E as [_ E].
    rewrite <- !app_assoc in E. rewrite nth_error_app2 in E by (cbn [length]; lia). rewrite nth_error_app2 in E by (cbn [length]; lia). rewrite nth_error_app2 in E by (cbn [length]; lia).
    match type of E with nth_error _ ?n = _ => replace n with 0%nat in E by (cbn [length]; lia) end. cbn [app nth_error] in E. injection E as E. cbn [given]. rewrite <- E.
    change 7 with (N.ones 3). rewrite N.land_ones. apply N.mod_lt. discriminate.
  - destruct (e_rates v) as [l|]; [|reflexivity]. destruct T2 as [e E]. change (ApnRateControlStatusMM_dec (eps_end v ++ r) = Err e) in E. rewrite Y in E. discriminate E.
  - destruct (e_rates v) as [l|]; [|apply T2]. destruct T2 as [e E]. change (ApnRateControlStatusMM_dec (eps_end v ++ r) = Err e) in E. rewrite Y in E. discriminate E.
  - destruct (e_rates v) as [l|]; [|apply T2]. destruct T2 as [e E]. change (ApnRateControlStatusMM_dec (eps_end v ++ r) = Err e) in E. rewrite Y in E. discriminate E.
  - destruct (e_rates v) as [l|]; [|apply T2]. destruct T2 as [e E]. change (ApnRateControlStatusMM_dec (eps_end v ++ r) = Err e) in E. rewrite Y in E. discriminate E.
Qed.

(* ------------------------------------------------------------------------- *)
(* C65: of the elements received, exactly those that meet the condition arrive. Left out are elements of unknown type (their type is
   lost) and EPS contexts in which one of the three capabilities is missing. *)
Definition left_out (e : ie) : Prop :=
  match e with IE_Unknown _ => True | IE_MmContext x => ~ capable x | _ => False end.
Theorem C65_exact_received : forall b l e, bytes b -> decoder Debug b = Ok l -> In e l -> ~ left_out e ->
  ie_instance e < 16 -> nlen (ie_marshal e) <= 65535 -> (arrives e <-> survives e).
Proof.
  intros b l e B D I G S1 S2. destruct e;
    try (apply (C65_exact_groups b l _ B D I); [|exact S1|exact S2]; intros Z; cbn [not_sent_on] in Z; first [exact Z | apply G; exact Logic.I]).
  split.
  - intros A. change (mm_survives i). assert (NE : ie_marshal (IE_MmContext i) <> []) by (destruct i; discriminate).
    destruct (arrives_says _ Debug NE A) as (A1 & _ & _). destruct i as [x|x|x|x|x|x].
    + apply eps_exact; [|exact A]. cbn [left_out capable] in G. cbn [capable]. destruct (e_ue (ie_v x)), (e_ms (ie_v x)), (e_mei (ie_v x)); try (exfalso; apply G; intros (G1 & G2 & G3); solve [apply G1; reflexivity | apply G2; reflexivity | apply G3; reflexivity]).
      repeat split; discriminate.
    + exact (umtsq_exact _ _ A1).
    + exact (umtsqq_exact _ A).
    + exact (umtscq_exact _ _ A1).
    + exact (gsmt_exact _ _ A1).
    + exact (gsmcq_exact _ _ A1).
  - intros A m after F. pose proof D as D'. apply decoder_iff in D'; [|exact B].
    pose proof (proj1 (Forall_forall _ _) (proj1 says_kept _ _ D' B) _ I) as K. destruct (K ltac:(repeat split; assumption)) as [W R].
    rewrite <- (PropsV2Ie.C18_ie_list_roundtrip m (again (IE_MmContext i) :: after)) by (constructor; [split; assumption|exact F]). unfold encoder. cbn [map concat]. rewrite marshal_of_again. reflexivity.
Qed.
Print Assumptions C65_exact_received.
(* A GSM context that arrives, and one without a capability, which does not. *)
Definition gsm_octets (ue : list N) : list N := [103; 0; 19; 0; 0; 0; 0; 1; 2; 3; 4; 5; 6; 7; 8] ++ ue ++ [1; 2; 1; 3; 4; 0].
Example C65_received_example : exists e, decoder Debug (gsm_octets [1; 9]) = Ok [e] /\ ~ left_out e /\ ie_instance e < 16 /\ arrives e.
Proof.
  set (b := gsm_octets [1; 9]). assert (E : exists e, decoder Debug b = Ok [e] /\ match e with IE_MmContext (MmGsmT x) => mm_survives (MmGsmT x) | _ => False end /\ ie_instance e < 16 /\ nlen (ie_marshal e) <= 65535).
  { eexists. split; [vm_compute; reflexivity|]. repeat split; discriminate. }
  destruct E as (e & E & X & I & L). assert (G : ~ left_out e) by (destruct e; try contradiction X; destruct i; try contradiction X; intros G; apply G; exact Logic.I).
  exists e. repeat split; try assumption. refine (proj2 (C65_exact_received b [e] e ltac:(repeat constructor) E (or_introl eq_refl) G I L) _).
  destruct e; try contradiction X. destruct i; try contradiction X. exact X.
Qed.
Example C65_received_lost : exists e, decoder Debug (gsm_octets [0; 9]) = Ok [e] /\ ~ left_out e /\ ie_instance e < 16 /\ ~ arrives e.
Proof.
  eexists. split; [vm_compute; reflexivity|]. split; [cbn [left_out capable]; tauto|]. split; [reflexivity|]. intros A. specialize (A Debug [] (Forall_nil _)). vm_compute in A. discriminate A.
Qed.
(* The EPS contexts are left out for a reason: in this one the device identity is missing, and yet it arrives. The octet passed over
   too much behind it is made up for by the one passed over too little behind the extended access restrictions. *)
Definition eps_octets : list N := [107; 0; 57; 0] ++ repeat 0 41 ++ [1; 8; 1; 9; 0; 0; 0; 0; 0; 0; 1; 7; 0; 0; 0; 0].
Theorem C65_eps_refuted : exists e, decoder Debug eps_octets = Ok [e] /\ ie_instance e < 16 /\ arrives e /\ ~ survives e.
Proof.
  eexists. split; [vm_compute; reflexivity|]. split; [reflexivity|]. split.
  - intros m after F. set (e := IE_MmContext _). assert (H : forall r, decode_one (decoder m) m (ie_marshal e ++ r) = Ok (again e)).
    { intros r. subst e. unfold ie_marshal, MmContext_marshal, MmContextEpsSecurityContextQuadruplets_marshal, marshal_ie. rewrite tliv_eq. cbn [app]. rewrite disp_107 by reflexivity. vm_compute. reflexivity. }
    assert (L : ie_len m (again e) = Ok (length (ie_marshal e))) by reflexivity.
    assert (O : forall x r, In x after -> decode_one (decoder m) m (ie_marshal x ++ r) = Ok x) by (intros x r X; apply PropsV2Ie.C16_dispatched_roundtrip; apply (proj1 (Forall_forall _ _) F x X)).
    rewrite V2DecLoop.decoder_eq. unfold encoder. cbn [map concat]. assert (P : exists q, ie_marshal e = 107 :: q) by (eexists; reflexivity).
    destruct P as [q P]. pose proof (H (concat (map ie_marshal after))) as H1. rewrite P in *. cbn [app length ie_loop] in *. rewrite H1. cbn [bind]. rewrite L. cbn [bind].
    cbn [skipn]. rewrite skipn_app, skipn_all, Nat.sub_diag. cbn [skipn app].
    change (concat (map ie_marshal after)) with (encoder after). rewrite ie_loop_rt; [reflexivity|exact O| |rewrite app_length; lia]. intros x X. apply (proj1 (Forall_forall _ _) F x X).
  - intros (_ & _ & M & _). apply M. reflexivity.
Qed.
Print Assumptions C65_eps_refuted.
