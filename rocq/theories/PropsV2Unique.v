(* PropsV2Unique.v - C83 for GTPv2-C: the octets sent determine the messages. *)
From Coq Require Import String.
From Verif Require Import Base BaseFacts V2BaseFacts V2MsgWire PropsV2Ie PropsV2Msg PropsV2Multi.
Local Open Scope N_scope.
Notation length := List.length.

(* --- specification: [sendable], [octets] and [delivered] are those of C67, [colliding] (the kinds with the same code) that of C33. *)

(* --- proofs ---------------------------------------------------------------------------------------------------------- *)
Lemma octets_code s : sendable s -> nth 1 (octets s) 0 = md_type (fst s).
Proof.
  intros (L & _ & (T & _) & _). destruct s as [d x]. cbn [fst snd] in *. unfold octets, msg_marshal. cbn [app fst snd]. rewrite set_length_marshal.
  unfold h2_marshal, with_length. cbn [app h2_msgtype nth]. rewrite T. reflexivity.
Qed.
Lemma same_def (d : message_def) L (d' : message_def) L' : In (d, L) gtpv2_messages -> In (d', L') gtpv2_messages -> md_name d = md_name d' -> d = d'.
Proof.
  intros H H' E. pose proof C33_names_distinct as ND. revert H H' ND. generalize gtpv2_messages as l. induction l as [|[e M] l IH]; intros H H' ND; [destruct H|].
  inversion ND as [|? ? A B]; subst. cbn [fst] in *. destruct H as [H|H], H' as [H'|H'].
  - congruence.
  - injection H as -> ->. exfalso. apply A. rewrite E. exact (in_map (fun p => md_name (fst p)) _ _ H').
  - injection H' as -> ->. exfalso. apply A. rewrite <- E. exact (in_map (fun p => md_name (fst p)) _ _ H).
  - exact (IH H H' B).
Qed.
Lemma app_prefix {A} (p q r s : list A) : length p = length q -> p ++ r = q ++ s -> p = q /\ r = s.
Proof.
  revert q. induction p as [|a p IH]; intros [|b q] L E; try discriminate L; [split; [reflexivity|exact E]|].
  cbn in E. injection E as -> E. cbn in L. injection L as L. destruct (IH q L E) as [-> ->]. split; reflexivity.
Qed.

(* --- theorems -------------------------------------------------------------------------------------------------------- *)
(* No message's octets begin with those of another: if they agree with something appended, they are the same octets, the kinds have
   the same code and, if the kind is the same, the messages are the same but for the length in the header. *)
Theorem C83_prefix_free_v2 : forall s t r q, sendable s -> sendable t -> octets s ++ r = octets t ++ q ->
  octets s = octets t /\ r = q /\
  ((fst s = fst t /\ delivered (snd s) = delivered (snd t)) \/ In (md_name (fst s), md_name (fst t)) colliding).
Proof.
  intros s t r q Hs Ht E. destruct (sendable_length s Hs) as [S4 SL], (sendable_length t Ht) as [T4 TL].
  assert (LE : length (octets s) = length (octets t)).
  { apply Nat2N.inj. rewrite SL, TL. rewrite <- (declared_app (octets s) r S4), <- (declared_app (octets t) q T4), E. reflexivity. }
  destruct (app_prefix _ _ _ _ LE E) as [O ->]. split; [exact O|]. split; [reflexivity|].
  pose proof (octets_code s Hs) as CS. pose proof (octets_code t Ht) as CT. rewrite O, CT in CS.
  destruct s as [d x], t as [d' x']. destruct Hs as (L & Hin & Hw & Hb & Hc), Ht as (L' & Hin' & Hw' & Hb' & Hc'). cbn [fst snd] in *.
  destruct (C33_types_distinct_partial d L d' L' Hin Hin' (eq_sym CS)) as [NM|NM]; [left|right; exact NM].
  pose proof (same_def d L d' L' Hin Hin' NM) as ->. split; [reflexivity|].
  pose proof (C26_round_trip_partial d' L x Debug [] Hin Hw Hb Hc) as R. pose proof (C26_round_trip_partial d' L' x' Debug [] Hin' Hw' Hb' Hc') as R'.
  unfold octets in O. cbn [fst snd] in O. rewrite O, R' in R. apply Ok_inj in R. symmetry. exact R.
Qed.
(* So any number of messages in one packet are determined by the octets. *)
Theorem C83_sequence_v2 : forall l l', Forall sendable l -> Forall sendable l' -> concat (map octets l) = concat (map octets l') ->
  Forall2 (fun s t => (fst s = fst t /\ delivered (snd s) = delivered (snd t)) \/ In (md_name (fst s), md_name (fst t)) colliding) l l'.
Proof.
  induction l as [|s l IH]; intros [|t l'] H H' E; [constructor| | |].
  - exfalso. apply Forall_inv in H'. destruct (sendable_length t H') as [T4 _]. cbn [map concat] in E. apply (f_equal (@length N)) in E. rewrite app_length in E. cbn in E. lia.
  - exfalso. apply Forall_inv in H. destruct (sendable_length s H) as [S4 _]. cbn [map concat] in E. apply (f_equal (@length N)) in E. rewrite app_length in E. cbn in E. lia.
  - inversion H as [|? ? Hs Hl]; inversion H' as [|? ? Ht Hl']; subst. cbn [map concat] in E.
    destruct (C83_prefix_free_v2 s t _ _ Hs Ht E) as (_ & R & K). constructor; [exact K|]. exact (IH l' Hl Hl' R).
Qed.
(* The colliding kinds are really ambiguous: a Resume Notification and a Stop Paging Indication with the same octets. *)
Definition w_resume : sent := (md_resumenotification, mkMsg (mkHdr2 164 false None 0 (Some 9) 43) [[w_imsi 49]; []; []; []; []]).
Definition w_stop : sent := (md_stoppagingindication, mkMsg (mkHdr2 164 false None 0 (Some 9) 43) [[w_imsi 49]; []]).
Theorem C83_kind_refuted : sendable w_resume /\ sendable w_stop /\ octets w_resume = octets w_stop /\ md_name (fst w_resume) <> md_name (fst w_stop).
Proof.
  split; [|split; [|split; [vm_compute; reflexivity|discriminate]]].
  - exists ly_resumenotification. split; [listed|]. split; [wf_msg|]. split; [discriminate|vm_compute; reflexivity].
  - exists ly_stoppagingindication. split; [listed|]. split; [wf_msg|]. split; [discriminate|vm_compute; reflexivity].
Qed.
(* The same for two messages of one kind, of any size and with any number of elements, also those that do not arrive: TWAN identifiers, trace
   references, several bearer contexts in a Modify Bearer Command. *)
Definition written (d : message_def) (L : layout) (x : message) : Prop :=
  let h := msg_header x in
  h2_msgtype h = md_type d /\ h2_sqn h < 16777216 /\ (forall p, h2_prio h = Some p -> p < 16) /\ (forall t, h2_teid h = Some t -> t < 4294967296) /\
  (h2_teid h = None -> h2_prio h = None) /\ conforms L (msg_fields x) /\ Forall (Forall ie_wf) (msg_fields x).
Lemma lead e : ie_wf e -> kind_of e <> K_Unknown -> kind_of e <> K_TraceReference -> exists c r, has_code e c /\ ie_marshal e = c :: r.
Proof.
  intros W U T. destruct (C14_ie_framing e) as (c & i & v & C & F & _).
  - destruct e; try exact I; try (exfalso; first [apply U; reflexivity|apply T; reflexivity]). cbn [ie_wf] in W. apply W.
  - exists c. eexists. split; [exact C|]. rewrite F. reflexivity.
Qed.
Lemma trace_lead i : ie_wf (IE_TraceReference i) -> exists r, ie_marshal (IE_TraceReference i) = 83 :: r.
Proof. intros _. unfold ie_marshal, TraceReference_marshal, marshal_ie. rewrite tliv_eq. cbn [app]. eexists. reflexivity. Qed.
Definition together (e e' : ie) : Prop := ~ (kind_of e = K_TraceReference /\ kind_of e' = K_ServingNetwork).
Lemma element_unique e e' r r' : ie_wf e -> ie_wf e' -> kind_of e <> K_Unknown -> kind_of e' <> K_Unknown -> together e e' -> together e' e ->
  ie_marshal e ++ r = ie_marshal e' ++ r' -> e = e' /\ r = r'.
Proof.
  intros W W' U U' T T' E.
  assert (Own : own_decode e Debug (ie_marshal e ++ r) = Ok e) by (apply C16_ie_roundtrip; [exact W|]; intros i ->; apply U; reflexivity).
  assert (Own' : own_decode e' Debug (ie_marshal e' ++ r') = Ok e') by (apply C16_ie_roundtrip; [exact W'|]; intros i ->; apply U'; reflexivity).
  assert (Fin : own_decode e Debug = own_decode e' Debug -> e = e' /\ r = r').
  { intros S. rewrite E, S, Own' in Own. apply Ok_inj in Own. subst e'. split; [reflexivity|]. exact (app_inv_head _ _ _ E). }
  assert (Tr : forall i e r e' r', e = IE_TraceReference i -> ie_wf e -> ie_wf e' -> kind_of e' <> K_Unknown -> together e e' -> ie_marshal e ++ r = ie_marshal e' ++ r' -> kind_of e' = K_TraceReference).
  { clear. intros i e r e' r' -> W W' U' T E. destruct (trace_lead i W) as (q & Q). rewrite Q in E.
    destruct (kind_eqb (kind_of e') K_TraceReference) eqn:K; [apply kind_eqb_eq in K; exact K|exfalso].
    destruct (lead e' W' U') as (c & q' & C & Q'); [intros Z; rewrite Z in K; discriminate|]. rewrite Q' in E. cbn [app] in E. injection E as <- _.
    apply T. split; [reflexivity|]. destruct e'; cbn [has_code] in C; try discriminate C; try reflexivity; try (exfalso; apply U'; reflexivity); match goal with C : _ = match ?i with _ => _ end |- _ => destruct i; discriminate C end. }
  assert (Tw : forall i e r e' r', e = IE_TwanId i -> ie_wf e -> ie_wf e' -> kind_of e' <> K_Unknown -> kind_of e' <> K_TraceReference -> ie_marshal e ++ r = ie_marshal e' ++ r' -> kind_of e' = K_TwanId).
  { clear. intros i e r e' r' -> W W' U' T E. destruct (lead _ W ltac:(discriminate) ltac:(discriminate)) as (c0 & q & C0 & Q). cbn [has_code] in C0. subst c0. rewrite Q in E.
    destruct (lead e' W' U' T) as (c & q' & C & Q'). rewrite Q' in E. cbn [app] in E. injection E as <- _.
    destruct e'; cbn [has_code] in C; try discriminate C; try reflexivity; try (exfalso; apply U'; reflexivity); match goal with C : _ = match ?i with _ => _ end |- _ => destruct i; discriminate C end. }
  assert (KT : forall e, kind_of e = K_TraceReference -> exists i, e = IE_TraceReference i) by (clear; intros []; try discriminate; eauto).
  assert (KW : forall e, kind_of e = K_TwanId -> exists i, e = IE_TwanId i) by (clear; intros []; try discriminate; eauto).
  destruct (kind_eqb (kind_of e) K_TraceReference) eqn:A1; [apply kind_eqb_eq in A1|].
  { destruct (KT e A1) as [i Ei]. destruct (KT e' (Tr i e r e' r' Ei W W' U' T E)) as [j Ej]. subst. apply Fin. reflexivity. }
  destruct (kind_eqb (kind_of e') K_TraceReference) eqn:A2; [apply kind_eqb_eq in A2|].
  { destruct (KT e' A2) as [i Ei]. destruct (KT e (Tr i e' r' e r Ei W' W U T' (eq_sym E))) as [j Ej]. subst. apply Fin. reflexivity. }
  assert (N1 : kind_of e <> K_TraceReference) by (intros Z; rewrite Z in A1; discriminate).
  assert (N2 : kind_of e' <> K_TraceReference) by (intros Z; rewrite Z in A2; discriminate).
  destruct (kind_eqb (kind_of e) K_TwanId) eqn:A3; [apply kind_eqb_eq in A3|].
  { destruct (KW e A3) as [i Ei]. destruct (KW e' (Tw i e r e' r' Ei W W' U' N2 E)) as [j Ej]. subst. apply Fin. reflexivity. }
  destruct (kind_eqb (kind_of e') K_TwanId) eqn:A4; [apply kind_eqb_eq in A4|].
  { destruct (KW e' A4) as [i Ei]. destruct (KW e (Tw i e' r' e r Ei W' W U N1 (eq_sym E))) as [j Ej]. subst. apply Fin. reflexivity. }
  apply C16_ie_encoding_prefix_free; try assumption.
  - destruct e; try exact I; first [apply N1; reflexivity|apply U; reflexivity|discriminate A3].
  - destruct e'; try exact I; first [apply N2; reflexivity|apply U'; reflexivity|discriminate A4].
Qed.
Lemma elements_unique l l' : Forall (fun e => ie_wf e /\ kind_of e <> K_Unknown) l -> Forall (fun e => ie_wf e /\ kind_of e <> K_Unknown) l' ->
  (forall e e', In e (l ++ l') -> In e' (l ++ l') -> together e e') -> encoder l = encoder l' -> l = l'.
Proof.
  assert (NE : forall e, ie_wf e -> kind_of e <> K_Unknown -> exists c r, ie_marshal e = c :: r).
  { intros e W U. destruct (kind_eqb (kind_of e) K_TraceReference) eqn:K.
    - destruct e; try discriminate K. destruct (trace_lead _ W) as (r & Q). eauto.
    - destruct (lead e W U) as (c & r & _ & Q); [intros Z; rewrite Z in K; discriminate|eauto]. }
  unfold encoder. revert l'. induction l as [|e l IH]; intros [|e' l'] F F' T E; [reflexivity| | |].
  - exfalso. inversion F' as [|? ? [W U] _]; subst. destruct (NE e' W U) as (c & r & Q). cbn [map concat] in E. rewrite Q in E. discriminate.
  - exfalso. inversion F as [|? ? [W U] _]; subst. destruct (NE e W U) as (c & r & Q). cbn [map concat] in E. rewrite Q in E. discriminate.
  - inversion F as [|? ? [W U] F2]; inversion F' as [|? ? [W' U'] F2']; subst. cbn [map concat] in E.
    assert (T1 : together e e') by (apply T; apply in_or_app; [left; left|right; left]; reflexivity).
    assert (T2 : together e' e) by (apply T; apply in_or_app; [right; left|left; left]; reflexivity).
    destruct (element_unique e e' _ _ W W' U U' T1 T2 E) as [<- E'].
    f_equal. apply IH; [exact F2|exact F2'| |exact E']. intros a b A B. apply T; apply in_app_or in A; apply in_app_or in B; apply in_or_app; cbn [In]; tauto.
Qed.
(* trace reference and serving network are not fields of one message, and no field is for unknown elements *)
Lemma layouts_apart : forallb (fun dl => forallb (fun f => negb (kind_eqb (f_kind f) K_Unknown)) (snd dl) &&
  negb (existsb (fun f => kind_eqb (f_kind f) K_TraceReference) (snd dl) && existsb (fun f => kind_eqb (f_kind f) K_ServingNetwork) (snd dl))) gtpv2_messages = true.
Proof. vm_compute. reflexivity. Qed.
Lemma tovec_in d L x e : conforms L x -> In e (tovec d x) -> exists f v, In f L /\ In v x /\ In e v /\ kind_of e = f_kind f.
Proof.
  intros C I. unfold tovec in I. apply in_concat in I. destruct I as (v & Iv & Ie). apply in_map_iff in Iv. destruct Iv as (i & <- & _).
  revert i Ie. induction C as [|f v L x Hv C IH]; intros i Ie; [destruct i; destruct Ie|]. destruct i as [|i]; cbn [nth] in Ie.
  - exists f, v. repeat split; try (left; reflexivity); [exact Ie|]. destruct Hv as [B _]. rewrite Forall_forall in B. apply (B e Ie).
  - destruct (IH i Ie) as (g & w & A & B & D & F). exists g, w. repeat split; try (right; assumption); assumption.
Qed.
Theorem C83_sent_v2 : forall d L x y, In (d, L) gtpv2_messages -> written d L x -> written d L y -> msg_marshal d x [] = msg_marshal d y [] ->
  msg_fields x = msg_fields y /\ forall n, with_length (msg_header x) n = with_length (msg_header y) n.
Proof.
  intros d L x y H (X1 & X2 & X3 & X4 & X5 & Cx & Wx) (Y1 & Y2 & Y3 & Y4 & Y5 & Cy & Wy) E.
  unfold msg_marshal in E. cbn [app] in E. rewrite !set_length_marshal in E.
  set (ex := encoder (tovec d (msg_fields x))) in *. set (ey := encoder (tovec d (msg_fields y))) in *.
  assert (E8 : h2_marshal (with_length (msg_header x) 8) ++ ex = h2_marshal (with_length (msg_header y) 8) ++ ey).
  { unfold h2_marshal, with_length, enc16 in E |- *. cbn [app h2_flags h2_msgtype h2_length h2_teid h2_sqn h2_prio h2_piggyback] in E |- *.
    unfold h2_flags in *. cbn [h2_teid h2_prio h2_piggyback] in *. injection E as F T _ _ R. f_equal; [exact F|]. f_equal; [exact T|]. f_equal. f_equal. exact R. }
  assert (Hh : with_length (msg_header x) 8 = with_length (msg_header y) 8).
  { assert (Wf : forall h, h2_sqn h < 16777216 -> (forall p, h2_prio h = Some p -> p < 16) -> (forall t, h2_teid h = Some t -> t < 4294967296) ->
      (h2_teid h = None -> h2_prio h = None) -> wf_hdr2 (with_length h 8)).
    { intros h A1 A2 A3 A4. unfold wf_hdr2, with_length, u16, u32. cbn [h2_length h2_sqn h2_prio h2_teid]. repeat split; try assumption.
      destruct (h2_teid h); [discriminate|]. split; [discriminate|auto]. }
    pose proof (h2_roundtrip _ ex (Wf (msg_header x) X2 X3 X4 X5)) as R. rewrite E8, (h2_roundtrip _ ey (Wf (msg_header y) Y2 Y3 Y4 Y5)) in R.
    apply Ok_inj in R. congruence. }
  rewrite Hh in E8. apply app_inv_head in E8. split.
  - pose proof layouts_apart as P. rewrite forallb_forall in P. specialize (P _ H). cbn [snd] in P. apply andb_true_iff in P as [P1 P2].
    rewrite forallb_forall in P1. apply negb_true_iff in P2.
    assert (Ok1 : forall z, conforms L z -> Forall (Forall ie_wf) z -> Forall (fun e => ie_wf e /\ kind_of e <> K_Unknown) (tovec d z)).
    { intros z C W. apply Forall_forall. intros e Ie. destruct (tovec_in d L z e C Ie) as (f & v & If & Iv & Ev & Ke). split.
      - rewrite Forall_forall in W. specialize (W v Iv). rewrite Forall_forall in W. exact (W e Ev).
      - intros Z. specialize (P1 f If). rewrite <- Ke, Z in P1. discriminate. }
    assert (T : tovec d (msg_fields x) = tovec d (msg_fields y)).
    { apply elements_unique; [apply Ok1; assumption|apply Ok1; assumption| |exact E8].
      assert (In2 : forall e, In e (tovec d (msg_fields x) ++ tovec d (msg_fields y)) -> exists f, In f L /\ kind_of e = f_kind f).
      { intros e I. apply in_app_or in I. destruct I as [I|I]; [destruct (tovec_in d L _ e Cx I) as (f & v & A & _ & _ & B)|destruct (tovec_in d L _ e Cy I) as (f & v & A & _ & _ & B)]; eauto. }
      intros e e' I I' [K1 K2]. destruct (In2 e I) as (f & Lf & Kf), (In2 e' I') as (g & Lg & Kg).
      apply andb_false_iff in P2. destruct P2 as [P2|P2].
      - assert (Q : existsb (fun f => kind_eqb (f_kind f) K_TraceReference) L = true); [|congruence].
        apply existsb_exists. exists f. split; [exact Lf|]. apply kind_eqb_eq. congruence.
      - assert (Q : existsb (fun f => kind_eqb (f_kind f) K_ServingNetwork) L = true); [|congruence].
        apply existsb_exists. exists g. split; [exact Lg|]. apply kind_eqb_eq. congruence. }
    assert (Lx : length (msg_fields x) = length L) by (symmetry; eapply Forall2_len; exact Cx).
    assert (Ly : length (msg_fields y) = length L) by (symmetry; eapply Forall2_len; exact Cy).
    apply nth_ext with (d := []) (d' := []); [congruence|]. intros i Hi. destruct (nth_error L i) as [f|] eqn:Nf; [|apply nth_error_None in Nf; lia].
    rewrite <- (filter_tovec d L _ i f (mk_good d L H) (mk_tovec d L H) Cx Nf), <- (filter_tovec d L _ i f (mk_good d L H) (mk_tovec d L H) Cy Nf), T. reflexivity.
  - intros n. apply (f_equal (fun h => with_length h n)) in Hh. unfold with_length in *. destruct (msg_header x), (msg_header y). cbn in *. exact Hh.
Qed.
(* two Modify Bearer Commands with two bearer contexts each, which do not arrive (C26_second_bearer_refuted) *)
Example C83_case_sent : written md_modifybearercommand ly_modifybearercommand w_mbc /\ (length (nth 1 (msg_fields w_mbc) []) = 2)%nat.
Proof.
  split; [|reflexivity]. destruct C26_second_bearer_refuted as [(A1 & A2 & A3 & A4 & A5 & A6 & A7 & A8) _].
  repeat (split; [assumption|]). revert A8. apply Forall_impl. intros v. apply Forall_impl. intros e [W _]. exact W.
Qed.
Print Assumptions C83_sent_v2.
(* The hypotheses are met by the messages of C67_case. *)
Example C83_case_v2 : Forall sendable w_two. Proof. exact (proj1 C67_case). Qed.
Print Assumptions C83_prefix_free_v2.
Print Assumptions C83_sequence_v2.
Print Assumptions C83_kind_refuted.
