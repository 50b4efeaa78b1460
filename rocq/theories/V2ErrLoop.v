(* V2ErrLoop.v - the errors of element sequences, headers and messages against V2ErrSpec.v *)
From Coq Require Import String.
From Verif Require Import BaseFacts Octets V2BaseFacts V2MsgWire V2Base V2Decoder V2Msg V2MsgTables V2MsgLayouts V2ReadSpec V2ReadFacts V2ListSpec V2ListFacts V2MsgSpec V2MsgFacts V2MsgThms V2MsgReadSpec V2MsgReadFacts V2ErrSpec V2ErrFacts.
Import ListNotations.
Local Open Scope N_scope.
Notation length := List.length.

Lemma ie_len_err m e : errs [] (ie_len m e).
Proof. destruct e; cbn [ie_len]; errs_. Qed.

Lemma decode_says d b l : bytes b -> decode_ies d Debug b = Ok l -> octets_say b l.
Proof.
  revert b l. induction d as [|d IH]; intros b l Hb H; cbn [decode_ies] in H.
  - destruct b; [|discriminate]. apply Ok_inj in H. subst. constructor.
  - exact (loop_says d (length b) IH b l Hb H).
Qed.
(* a head that is an element is decoded *)
Lemma head_decodes d t q x n : bytes (t :: q) -> (length (t :: q) <= d)%nat -> head_says (t :: q) x n ->
  decode_one (decode_ies d Debug) Debug (t :: q) = Ok x.
Proof.
  intros Hb Hd H. apply got_ok. rewrite one_eq by exact Hb.
  inversion H as [t' q' y r e' n' K R Nx | t' a b c q' y f l' e' n' K F M G Nx]; subst; rewrite K; cbn [snd mean]; [exact R|].
  rewrite F. unfold got_dec. assert (E : decode_ies d Debug (firstn (N.to_nat (256 * a + b)) q') = Ok l'); [|rewrite E; exact G].
  destruct d as [|d]; [cbn [length] in Hd; lia|]. cbn [decode_ies]. cbn [length] in Hd. pose proof (firstn_le_length (N.to_nat (256 * a + b)) q').
  apply (loop_back (length q')); [rewrite firstn_length; lia| |exact M| |lia].
  - bys Hb. apply bytes_firstn. exact Hb.
  - rewrite firstn_length. lia.
Qed.
Lemma loop_stops N0 : forall d fuel b e, (length b <= N0)%nat -> bytes b -> (length b <= d)%nat ->
  ie_loop (decode_one (decode_ies d Debug) Debug) Debug fuel b = Err e -> stops_with b e.
Proof.
  induction N0 as [|N0 IH]; intros d fuel b e HN Hb Hd.
  { destruct b; [|cbn [length] in HN; lia]. destruct fuel; discriminate. }
  destruct fuel as [|f]; [destruct b; discriminate|]. destruct b as [|t q]; [discriminate|]. cbn [ie_loop].
  destruct (decode_one (decode_ies d Debug) Debug (t :: q)) as [x|e'| |] eqn:E1; cbn [bind]; try discriminate.
  - destruct (ie_len Debug x) as [n|e'| |] eqn:E2; cbn [bind]; try discriminate; [|exfalso; destruct (ie_len_err Debug x e' E2)].
    destruct (ie_loop _ Debug f (skipn n (t :: q))) as [r|e'| |] eqn:E3; cbn [bind]; try discriminate. intros H. injection H as <-.
    pose proof (one_eq (decode_ies d Debug) t q Hb) as HM. rewrite E1 in HM. cbn [got] in HM. symmetry in HM.
    destruct (code_sized t _ _ _ HM) as [HS HP]. rewrite E2 in HS. cbn [got] in HS. symmetry in HS. specialize (HP _ HS).
    assert (HL : (length (skipn n (t :: q)) <= length q)%nat) by (rewrite skipn_length; cbn [length]; lia). cbn [length] in HN, Hd.
    apply (stop_later _ x n).
    + destruct (kind_of_code t) as [y [rd|g]] eqn:EK; cbn [fst snd mean] in HM, HS.
      * apply (head_plain t q y rd); assumption.
      * destruct q as [|a0 [|b0 [|c0 q]]]; try discriminate. destruct (fits _ _) eqn:Hf; [|discriminate]. unfold got_dec in HM.
        destruct (decode_ies d Debug _) as [l| | |] eqn:E4; cbn [got] in HM; try discriminate.
        apply (head_group t a0 b0 c0 q y g l); try assumption. apply (decode_says d); [bys Hb; apply bytes_firstn; exact Hb|exact E4].
    + apply (IH d f); [lia|apply bytes_skipn; exact Hb|lia|exact E3].
  - intros H. injection H as <-. pose proof E1 as E2. apply one_err in E2. destruct E2 as [R|[(y & g & K) (a & b0 & c & q' & -> & F & Q)]].
    + apply stop_here; [|exact R]. intros x n HH. pose proof (head_decodes d t q x n Hb Hd HH) as C. rewrite C in E1. discriminate.
    + apply (stop_member t a b0 c q' y g); [exact K|exact F|]. cbn [length] in HN, Hd. destruct d as [|d]; [lia|]. cbn [decode_ies] in Q.
      pose proof (firstn_le_length (N.to_nat (256 * a + b0)) q'). refine (IH d _ _ _ _ _ _ Q); [rewrite firstn_length; lia|bys Hb; apply bytes_firstn; exact Hb|rewrite firstn_length; lia].
Qed.

Theorem decoder_stops b e : bytes b -> decoder Debug b = Err e -> stops_with b e.
Proof. intros Hb H. unfold decoder in H. cbn [decode_ies] in H. exact (loop_stops (length b) (length b) (length b) b e (le_n _) Hb (le_n _) H). Qed.
(* where reading stops there are no elements *)
Lemma stops_no_elements b e : stops_with b e -> bytes b -> forall l, ~ octets_say b l.
Proof.
  intros H. induction H as [s x n e HH HS IH|t q e HN R|t a b c q x f e K F S IH]; intros Hb l C.
  - inversion C as [|s' x' n' l' HH' C']; subst; [inversion HH|]. destruct s as [|t q]; [inversion HH|].
    pose proof (head_decodes _ t q x n Hb (le_n _) HH) as D. rewrite (head_decodes _ t q x' n' Hb (le_n _) HH') in D. apply Ok_inj in D. subst x'.
    assert (n' = n).
    { assert (Q : forall m, head_says (t :: q) x m -> next_after (fst (kind_of_code t)) (t :: q) x = Some m).
      { intros m Hm. inversion Hm as [t' q' y r e' n2 K R Nx | t' a b c q' y f l2 e' n2 K F M G Nx]; subst; rewrite K; exact Nx. }
      pose proof (Q _ HH) as Q1. rewrite (Q _ HH') in Q1. injection Q1 as ->. reflexivity. }
    subst n'. exact (IH (bytes_skipn _ _ Hb) _ C').
  - inversion C as [|s' x' n' l' HH' C']; subst. exact (HN _ _ HH').
  - inversion C as [|s' x' n' l' HH' C']; subst. inversion HH' as [t' q' y r e' n2 K2 R Nx | t' a2 b2 c2 q' y f2 l2 e' n2 K2 F2 M G Nx]; subst.
    + rewrite K in K2. discriminate.
    + refine (IH _ _ M). bys Hb. apply bytes_firstn. exact Hb.
Qed.

(* headers *)
Lemma header_reports_iff b e : h2_unmarshal b = Err e <-> header_reports b e.
Proof.
  unfold h2_unmarshal, MIN_HEADER_LENGTH, MAX_HEADER_LENGTH. destruct (Nat.leb_spec 8 (length b)) as [H8|H8].
  2:{ split.
      - intros H. injection H as <-. apply hr_short. unfold nlen. lia.
      - intros H. inversion H; subst; unfold nlen in *; [reflexivity|lia..]. }
  assert (B8 : 8 <= nlen b) by (unfold nlen; lia).
  assert (N01 : number_at b 0 1 = nth 0 b 0 /\ number_at b 2 2 = nth 2 b 0 * 256 + nth 3 b 0 /\ @at_ GTPV2Error b 0 = Ok (nth 0 b 0) /\ @at_ GTPV2Error b 1 = Ok (nth 1 b 0) /\
    @at_ GTPV2Error b 2 = Ok (nth 2 b 0) /\ @at_ GTPV2Error b 3 = Ok (nth 3 b 0) /\ @at_ GTPV2Error b 4 = Ok (nth 4 b 0) /\ @at_ GTPV2Error b 5 = Ok (nth 5 b 0) /\
    @at_ GTPV2Error b 6 = Ok (nth 6 b 0) /\ @at_ GTPV2Error b 7 = Ok (nth 7 b 0)).
  { list_split b H8. unfold number_at. cbn [skipn firstn]. unfold base256. cbn [fold_left nth]. unfold at_. cbn [nth_error]. repeat split; lia. }
  destruct N01 as (F & L & A0 & A1 & A2 & A3 & A4 & A5 & A6 & A7). rewrite A0. cbn [bind]. rewrite !one_bit. rewrite <- F, N.shiftr_div_pow2. change (2 ^ 5) with 32.
  destruct (N.eqb_spec (number_at b 0 1 / 32) 2) as [V|V]; cbn [negb].
  2:{ split.
      - intros H. injection H as <-. apply hr_version; assumption.
      - intros H. inversion H; subst; [lia|reflexivity|contradiction..]. }
  rewrite A1, A2, A3. cbn [bind]. unfold be16. rewrite <- L. destruct (bit_at (number_at b 0 1) 3) eqn:B3; cbn [negb].
  - destruct (Nat.leb_spec 12 (length b)) as [H12|H12].
    2:{ split.
        - intros H. injection H as <-. apply hr_teid; [exact B8|exact V|exact B3|left; unfold nlen; lia].
        - intros H. inversion H; subst; try reflexivity; try lia; try contradiction; congruence. }
    destruct (N.ltb_spec (number_at b 2 2) 8) as [Hl|Hl].
    { split.
      - intros H. injection H as <-. apply hr_teid; [exact B8|exact V|exact B3|right; exact Hl].
      - intros H. inversion H; subst; try reflexivity; try lia; try contradiction; congruence. }
    split.
    + intros H. exfalso. repeat match type of H with bind (at_ b ?k) _ = _ => let y := fresh "y" in destruct (@at_ GTPV2Error b k) as [y|y| |] eqn:Q; cbn [bind] in H; [clear Q|clear - Q; unfold at_ in Q; destruct (nth_error b k); discriminate|discriminate|discriminate] end.
      discriminate.
    + intros H. exfalso. unfold nlen in *. inversion H as [? X|? X1 X2|? X1 X2 X3 X4|? X1 X2 X3 X4|? X1 X2 X3 X4]; subst; unfold nlen in *; try lia; try contradiction; try congruence.
  - destruct (N.eqb_spec (number_at b 2 2) 0) as [Hz|Hz].
    { split.
      - intros H. injection H as <-. apply hr_zero; assumption.
      - intros H. inversion H; subst; try reflexivity; try lia; try contradiction; congruence. }
    destruct (N.ltb_spec (number_at b 2 2) 4) as [Hl|Hl].
    { split.
      - intros H. injection H as <-. apply hr_length; [assumption..|lia].
      - intros H. inversion H; subst; try reflexivity; try lia; try contradiction; congruence. }
    rewrite A4, A5, A6. cbn [bind]. split; [discriminate|]. intros H. exfalso. inversion H; subst; try lia; try contradiction; congruence.
Qed.

(* messages *)
Lemma bytes_part b i n : bytes b -> bytes (firstn n (skipn i b)).
Proof. intros H. apply bytes_firstn, bytes_skipn. exact H. Qed.
Theorem message_refused d L b e : In (d, L) gtpv2_messages -> bytes b -> msg_unmarshal d Debug b = Err e -> refused (md_name d) (md_type d) L b e.
Proof.
  intros H Hb U. pose proof starts_from as S. rewrite forallb_forall in S. specialize (S _ H). cbn [fst snd] in S.
  unfold msg_unmarshal in U. destruct (h2_unmarshal b) as [h|e'| |] eqn:Hh; cbn [bind] in U; try discriminate.
  2:{ injection U as <-. apply rf_header, header_reports_iff. exact Hh. }
  apply header_says_iff in Hh. destruct (N.eqb_spec (h2_msgtype h) (md_type d)) as [Ht|Ht]; cbn [negb] in U.
  2:{ injection U as <-. apply (rf_type _ _ _ _ h); assumption. }
  destruct (md_start d) as [s|] eqn:Es; [|discriminate].
  apply andb_true_iff in S. destruct S as [S1 S2]. apply Nat.eqb_eq in S1. subst s. apply negb_true_iff, String.eqb_neq in S2. unfold MANDATORY_HDR_LENGTH in U.
  destruct (Nat.leb_spec (N.to_nat (h2_length h) + 4) (length b)) as [H2|H2].
  2:{ injection U as <-. apply (rf_octets _ _ _ _ h); [exact S2|exact Hh|exact Ht|unfold nlen; lia]. }
  unfold slice in U. destruct (Nat.leb_spec (elements_from (md_name d)) (N.to_nat (h2_length h) + 4)) as [H1|H1]; [|discriminate U].
  rewrite (proj2 (Nat.leb_le _ _) H2) in U. cbn [andb bind] in U.
  assert (EO : element_octets (md_name d) b h (firstn (N.to_nat (h2_length h) + 4 - elements_from (md_name d)) (skipn (elements_from (md_name d)) b))).
  { apply element_octets_iff. auto. }
  destruct (decoder Debug _) as [l|e'| |] eqn:Hd; cbn [bind] in U; try discriminate.
  2:{ injection U as <-. apply (rf_element _ _ _ _ h _ _ S2 Hh Ht EO). apply decoder_stops; [apply bytes_part; exact Hb|exact Hd]. }
  apply decoder_iff in Hd; [|apply bytes_part; exact Hb].
  destruct (fromvec d l) as [x|e'| |] eqn:Hx; cbn [bind] in U; try discriminate. injection U as <-.
  assert (NI : md_name d <> "IdentificationResponse"%string).
  { intros E. pose proof (identification d L H E) as J. injection J as -> ->. unfold fromvec in Hx. cbn [md_final md_identificationresp decide] in Hx. discriminate. }
  assert (UN : ~ In (md_name d) unenforced) by (intros [E'|[]]; congruence).
  destruct (in_dec string_dec (md_name d) misnaming) as [Mi|Mi].
  - destruct (fromvec_err d L (mk_good d L H) (mk_flags d L H) (mk_enforces d L H UN) l e' Hx) as (c & -> & f & Hf & Hm).
    apply (rf_missing _ _ _ _ h _ l f c S2 NI Hh Ht EO Hd Hf Hm). intros C. contradiction.
  - destruct (fromvec_err_names d L (mk_good d L H) (mk_flags d L H) (mk_enforces d L H UN) l e' (mk_names d L H Mi) Hx) as (c & f & -> & Hf & Hm & Hc).
    apply (rf_missing _ _ _ _ h _ l f c S2 NI Hh Ht EO Hd Hf Hm). intros _. exact Hc.
Qed.
(* a refused message has no meaning *)
Lemma one_header b h h' : header_says b h -> header_says b h' -> h = h'.
Proof. intros A B. apply header_says_iff in A, B. rewrite A in B. apply Ok_inj in B. exact B. Qed.
Lemma one_part name b h s s' : element_octets name b h s -> element_octets name b h s' -> s = s'.
Proof. intros A B. apply element_octets_iff in A as [_ A], B as [_ B]. congruence. Qed.
Theorem refused_not_said d L b e x : In (d, L) gtpv2_messages -> bytes b -> refused (md_name d) (md_type d) L b e ->
  ~ message_says (md_name d) (md_type d) L b x.
Proof.
  intros H Hb R (Hh & Ht & Hr). destruct R as [e R|h Gh Gt|h NV Gh Gt Go|h s e NV Gh Gt Go Gs|h s l f t NV NI Gh Gt Go Gs Gf Gm Gc].
  - apply header_reports_iff in R. apply header_says_iff in Hh. rewrite Hh in R. discriminate.
  - pose proof (one_header _ _ _ Gh Hh). subst h. contradiction.
  - pose proof (one_header _ _ _ Gh Hh). subst h. apply String.eqb_neq in NV. rewrite NV in Hr. destruct Hr as (s & l & Ho & _).
    apply element_octets_iff in Ho as [[_ Ho] _]. unfold nlen in Go. lia.
  - pose proof (one_header _ _ _ Gh Hh). subst h. apply String.eqb_neq in NV. rewrite NV in Hr. destruct Hr as (s' & l & Ho & Hs & _).
    rewrite (one_part _ _ _ _ _ Go Ho) in Gs. refine (stops_no_elements _ _ Gs _ l Hs). apply element_octets_iff in Ho as [_ ->]. apply bytes_part. exact Hb.
  - pose proof (one_header _ _ _ Gh Hh). subst h. apply String.eqb_neq in NV. rewrite NV in Hr. destruct Hr as (s' & l' & Ho & Hs & Hf).
    pose proof (one_part _ _ _ _ _ Go Ho). subst s'. assert (bytes s) by (apply element_octets_iff in Ho as [_ ->]; apply bytes_part; exact Hb).
    assert (l' = l). { apply decoder_iff in Hs; [|assumption]. apply decoder_iff in Gs; [|assumption]. rewrite Hs in Gs. apply Ok_inj in Gs. exact Gs. }
    subst l'. unfold fields_say in Hf. apply String.eqb_neq in NI. rewrite NI in Hf. exact (proj1 Hf f Gf Gm).
Qed.
