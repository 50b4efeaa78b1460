(* V1CrashEi.v - when decoding a GTP-U Error Indication panics. *)
From Coq Require Import Sorting.Sorted.
From Verif Require Import Base BaseFacts LabelsFacts V1U V1CHdr V1CIe V1CKind V1CMsg V1CSafeSpec V1CMsgSpec V1CMsgSafety V1CHdrSafety V1CIeSafety V1CrashSpec V1Crash V1CrashIe V1CrashMsg V1CrashPkt.
Local Open Scope N_scope.

(* a decoder of GTP-U and one of GTPv1-C *)
Definition alike {A} (m : mode) (len : A -> res nat) (u : res A) (v : res ie1) : Prop :=
  match u, v with
  | Ok x, Ok y => len x = ie1_len m y
  | Err _, Err _ | Panic, Panic => True
  | _, _ => False
  end.
Lemma at_cases {E} b i : @at_ E b i = Panic \/ exists x, @at_ E b i = Ok x.
Proof. unfold at_. destruct (nth_error b i); eauto. Qed.
Ltac ats := repeat match goal with |- context [at_ ?s ?i] =>
  let H := fresh in destruct (at_cases (E := GTPV1Error) s i) as [H|[? H]]; rewrite ?H; cbn [bind]; [exact I|clear H] end.
Lemma teid_alike m s : alike m (fun _ => Ok 5%nat) (Teid_unmarshal s) (ie1_unmarshal K1_Teid m s).
Proof.
  cbn [ie1_unmarshal]. unfold Teid_unmarshal, CTeid_unmarshal, be32_at. destruct (Nat.ltb_spec 4 (length s)), (Nat.leb_spec 5 (length s)); try lia; [|exact I].
  cbn [Nat.add]. ats. reflexivity.
Qed.
Lemma gsn_alike m s : alike m (Gsn_len m) (Gsn_unmarshal m s) (ie1_unmarshal K1_Gsn m s).
Proof.
  cbn [ie1_unmarshal]. unfold Gsn_unmarshal, CGsn_unmarshal, var_unmarshal. destruct (3 <=? length s)%nat; [|exact I].
  destruct (at_cases (E := GTPV1Error) s 1) as [->|[l1 ->]]; [exact I|]. destruct (at_cases (E := GTPV1Error) s 2) as [->|[l2 ->]]; [exact I|]. cbn [bind]. cbv zeta.
  unfold check_tlv_ie_buffer. destruct (be16 l1 l2 =? 0); [exact I|]. destruct (add16 m (be16 l1 l2) 3) as [e| | |] eqn:Ea; cbn [bind]; try exact I.
  2:{ unfold add16, ov in Ea. destruct (_ <? _), m; discriminate. }
  destruct (_ <=? _)%nat; [|exact I]. unfold ip_at. destruct (be16 l1 l2 =? 4).
  - ats. reflexivity.
  - destruct (be16 l1 l2 =? 16); [|exact I]. destruct (19 <=? length s)%nat; [|exact I]. unfold slice. destruct (_ && _)%bool; [reflexivity|exact I].
Qed.
Lemma pe_alike m s : alike m (Pe_len m) (Pe_unmarshal m s) (ie1_unmarshal K1_Pe m s).
Proof.
  cbn [ie1_unmarshal]. unfold Pe_unmarshal, CPe_unmarshal, var_unmarshal, be16_at. destruct (3 <=? length s)%nat; [|exact I].
  destruct (at_cases (E := GTPV1Error) s 1) as [->|[l1 ->]]; [exact I|]. destruct (at_cases (E := GTPV1Error) s 2) as [->|[l2 ->]]; [exact I|]. cbn [bind]. cbv zeta.
  unfold check_tlv_ie_buffer. destruct (be16 l1 l2 =? 0); [exact I|]. destruct (add16 m (be16 l1 l2) 3) as [e| | |] eqn:Ea; cbn [bind]; try exact I.
  2:{ unfold add16, ov in Ea. destruct (_ <? _), m; discriminate. }
  destruct (_ <=? _)%nat; [|exact I]. cbn [Nat.add]. ats. unfold slice_from, slice. destruct (_ <=? _)%nat; [reflexivity|exact I].
Qed.

Section Ei.
Context (m : mode).
Definition kinds (t : N) : option kind1 := if t =? 16 then Some K1_Teid else if t =? 133 then Some K1_Gsn else if t =? 255 then Some K1_Pe else None.
Lemma kinds_code t k : kinds t = Some k -> code_kind t = Some k.
Proof. unfold kinds. destruct (N.eqb_spec t 16) as [->|]; [intros [= <-]; reflexivity|]. destruct (N.eqb_spec t 133) as [->|]; [intros [= <-]; reflexivity|]. destruct (N.eqb_spec t 255) as [->|]; [intros [= <-]; reflexivity|discriminate]. Qed.
Lemma kinds_in t : In t [16; 133; 255] <-> exists k, kinds t = Some k.
Proof.
  unfold kinds. cbn [In]. destruct (N.eqb_spec t 16); [split; eauto|]. destruct (N.eqb_spec t 133); [split; eauto|]. destruct (N.eqb_spec t 255); [split; eauto|].
  split; [intros [E|[E|[E|[]]]]; congruence|intros [k E]; discriminate].
Qed.
Definition cs (s : EiState) : counts1 := fun t => if t =? 16 then V1U.c_teid s else if t =? 133 then c_gsn s else if t =? 255 then c_pe s else None.
Lemma count_next c : count m c = (let? n := next_count m c in Ok (Some n)).
Proof. destruct c; [|reflexivity]. cbn [count next_count]. reflexivity. Qed.

Lemma ei_step fuel b s t : nth_error b (ei_cursor s) = Some t -> ei_increment s <= t ->
  match kinds t with
  | None => ei_loop m (S fuel) b s <> Panic
  | Some k =>
    match ie1_unmarshal k m (skipn (ei_cursor s) b) with
    | Ok i => match next_count m (cs s t), ie1_len m i with
              | Ok n, Ok l => exists s', ei_loop m (S fuel) b s = ei_loop m fuel b s' /\ ei_cursor s' = (ei_cursor s + l)%nat /\ ei_increment s' = t /\ forall u, cs s' u = put1 (cs s) t n u
              | Panic, _ => ei_loop m (S fuel) b s = Panic
              | Ok _, Panic => ei_loop m (S fuel) b s = Panic
              | _, _ => True
              end
    | Err _ => ei_loop m (S fuel) b s <> Panic
    | Panic => ei_loop m (S fuel) b s = Panic
    | Diverge => True
    end
  end.
Proof.
  intros Ht Hi. assert (Hp : (ei_cursor s < length b)%nat) by (apply nth_error_Some; congruence). cbn [ei_loop].
  destruct (Nat.leb_spec (length b) (ei_cursor s)); [lia|]. unfold at_. rewrite Ht. cbn [bind]. destruct (N.ltb_spec t (ei_increment s)); [lia|].
  rewrite slice_from_ok by lia. cbn [bind]. unfold kinds. change TEID_DATA with 16. change GSN_ADDRESS with 133. change PRIVATE_EXTENSION with 255.
  destruct (N.eqb_spec t 16) as [->|E1].
  { pose proof (teid_alike m (skipn (ei_cursor s) b)) as A. unfold alike in A. destruct (Teid_unmarshal _), (ie1_unmarshal _ _ _) as [y| | |]; try contradiction; try discriminate; try reflexivity.
    rewrite <- A. rewrite count_next. change (cs s 16) with (V1U.c_teid s). destruct (next_count m (V1U.c_teid s)) as [n| | |]; cbn [bind]; try exact I; try reflexivity.
    eexists. split; [reflexivity|]. split; [reflexivity|]. split; [reflexivity|]. intros u. unfold cs, put1. cbn. destruct (u =? 16); reflexivity. }
  destruct (N.eqb_spec t 133) as [->|E2].
  { pose proof (gsn_alike m (skipn (ei_cursor s) b)) as A. unfold alike in A. destruct (Gsn_unmarshal _ _), (ie1_unmarshal _ _ _) as [y| | |]; try contradiction; try discriminate; try reflexivity.
    rewrite <- A. rewrite count_next. change (cs s 133) with (c_gsn s). destruct (next_count m (c_gsn s)) as [n| | |]; cbn [bind]; try exact I; try reflexivity.
    destruct (Gsn_len m _) as [l| | |]; cbn [bind]; try exact I; try reflexivity.
    eexists. split; [reflexivity|]. split; [reflexivity|]. split; [reflexivity|]. intros u. unfold cs, put1. cbn. destruct (N.eqb_spec u 16) as [->|]; [reflexivity|]. destruct (u =? 133); reflexivity. }
  destruct (N.eqb_spec t 255) as [->|E3]; [|discriminate].
  { pose proof (pe_alike m (skipn (ei_cursor s) b)) as A. unfold alike in A. destruct (Pe_unmarshal _ _), (ie1_unmarshal _ _ _) as [y| | |]; try contradiction; try discriminate; try reflexivity.
    rewrite <- A. rewrite count_next. change (cs s 255) with (c_pe s). destruct (next_count m (c_pe s)) as [n| | |]; cbn [bind]; try exact I; try reflexivity.
    destruct (Pe_len m _) as [l| | |]; cbn [bind]; try exact I; try reflexivity.
    eexists. split; [reflexivity|]. split; [reflexivity|]. split; [reflexivity|]. intros u. unfold cs, put1. cbn. destruct (N.eqb_spec u 16) as [->|]; [reflexivity|]. destruct (N.eqb_spec u 133) as [->|]; [reflexivity|]. destruct (u =? 255); reflexivity. }
Qed.
Lemma counted_ext l c c' : (forall u, c' u = c u) -> counted m l c -> counted m l c'.
Proof. intros E H u. rewrite E. apply H. Qed.
Lemma no_diverge k s : ie1_unmarshal k m s <> Diverge.
Proof. apply ie1_nd. Qed.
Lemma len_cases i : ie1_len m i = Panic \/ exists n, ie1_len m i = Ok n.
Proof. destruct i; cbn [ie1_len]; eauto; unfold len_u16, add16, ov; destruct (_ <? _); cbn [bind]; eauto; destruct m; cbn [bind]; eauto. Qed.

Definition ei_crash_from (b : list N) (inc : N) (l0 : list N) (p : nat) : Prop :=
  exists l q t, read_up_to m b p l q /\ nth_error b q = Some t /\ StronglySorted N.le (inc :: l ++ [t]) /\
    Forall (fun u => In u [16; 133; 255]) (l ++ [t]) /\ crash_here 26 m b (l0 ++ l) q t.
Lemma ei_crash : forall fuel b s l0, bytes b -> counted m l0 (cs s) -> ei_loop m fuel b s = Panic -> ei_crash_from b (ei_increment s) l0 (ei_cursor s).
Proof.
  induction fuel as [|fuel IH]; intros b s l0 B Hc H; [discriminate|].
  destruct (nth_error b (ei_cursor s)) as [t|] eqn:En.
  2:{ apply nth_error_None in En. cbn [ei_loop] in H. destruct (Nat.leb_spec (length b) (ei_cursor s)); [discriminate|lia]. }
  destruct (N.ltb_spec t (ei_increment s)) as [K|Hle].
  { exfalso. cbn [ei_loop] in H. destruct (_ <=? _)%nat; [discriminate|]. unfold at_ in H. rewrite En in H. cbn [bind] in H. destruct (N.ltb_spec t (ei_increment s)); [discriminate|lia]. }
  pose proof (ei_step fuel b s t En Hle) as S. destruct (kinds t) as [k|] eqn:Ek; [|contradiction].
  assert (Hin : In t [16; 133; 255]) by (apply kinds_in; eauto). apply kinds_code in Ek.
  assert (Here : crash_here 26 m b l0 (ei_cursor s) t -> ei_crash_from b (ei_increment s) l0 (ei_cursor s)).
  { intros HC. exists [], (ei_cursor s), t. split; [constructor|]. split; [exact En|]. cbn [app]. split; [constructor; [repeat constructor|constructor; [exact Hle|constructor]]|].
    split; [constructor; [exact Hin|constructor]|]. rewrite app_nil_r. exact HC. }
  destruct (skipn_nth _ _ _ En) as [r Er]. assert (Bs : bytes (t :: r)) by (rewrite <- Er; apply bytes_skipn, B).
  pose proof (element_panic m t k r Bs Ek) as EP. rewrite <- Er in EP.
  destruct (ie1_unmarshal k m (skipn (ei_cursor s) b)) as [i|e| |] eqn:Ei; [|contradiction| |exfalso; exact (no_diverge _ _ Ei)].
  - destruct (next_cases m l0 _ t Hc) as [Hn|[n Hn]]; rewrite Hn in S.
    + apply Here. right. left. apply (next_panic m _ _ _ Hc) in Hn as [D E]. split; [exact D|]. split; [exact E|]. exists k, i. auto.
    + destruct (len_cases i) as [Hl|[x Hl]]; rewrite Hl in S.
      * apply Here. left. apply EP. right. exists i. auto.
      * destruct S as (s' & S & S1 & S2 & S3). rewrite S in H.
        destruct (IH b s' (l0 ++ [t]) B) as (l & q & u & R & Hq & Hs & HF & HC); [eapply counted_ext; [exact S3|]; eapply counted_next; eassumption|exact H|].
        rewrite S1 in R. rewrite S2 in Hs. exists (t :: l), q, u. split; [econstructor; eassumption|]. split; [exact Hq|]. split.
        { cbn [app]. constructor; [exact Hs|]. inversion Hs as [|? ? _ Hall]; subst. constructor; [exact Hle|].
          rewrite Forall_forall in Hall |- *. intros x0 Hx. specialize (Hall x0 Hx). lia. }
        split; [constructor; assumption|]. rewrite <- app_assoc in HC. exact HC.
  - apply Here. left. apply EP. left. exact Ei.
Qed.
Lemma crash_ei b p l q : read_up_to m b p l q -> bytes b -> forall t s l0 fuel, nth_error b q = Some t -> ei_cursor s = p ->
  StronglySorted N.le (ei_increment s :: l ++ [t]) -> Forall (fun u => In u [16; 133; 255]) (l ++ [t]) -> crash_here 26 m b (l0 ++ l) q t ->
  counted m l0 (cs s) -> (length b < fuel + p)%nat -> ei_loop m fuel b s = Panic.
Proof.
  intros R B. induction R as [p|p t0 k i n l q Ht Hk Hi Hn R IH]; intros t s l0 fuel Hq Es Hs HF HC Hc Hfu; subst p.
  - assert (Hp : (ei_cursor s < length b)%nat) by (apply nth_error_Some; congruence). destruct fuel as [|fuel]; [lia|].
    cbn [app] in Hs, HF. inversion Hs as [|? ? _ Hall]; subst. inversion Hall as [|? ? Hle _]; subst. inversion HF as [|? ? Hin _]; subst.
    pose proof (ei_step fuel b s t Hq Hle) as S. apply kinds_in in Hin as [k Ek]. rewrite Ek in S. apply kinds_code in Ek.
    destruct (skipn_nth _ _ _ Hq) as [r Er]. assert (Bs : bytes (t :: r)) by (rewrite <- Er; apply bytes_skipn, B).
    pose proof (element_panic m t k r Bs Ek) as EP. rewrite <- Er in EP. rewrite app_nil_r in HC.
    destruct HC as [HC|[(D & E & k' & i & Hk & Hi)|(H18 & _)]]; [| |discriminate].
    + apply EP in HC as [HC|(i & HC & Hp2)]; rewrite HC in S; [exact S|]. destruct (next_cases m _ _ t Hc) as [Hx|[x Hx]]; rewrite Hx in S; [exact S|]. rewrite Hp2 in S. exact S.
    + rewrite Ek in Hk. injection Hk as <-. rewrite Hi in S. rewrite (proj2 (next_panic m _ _ t Hc)) in S by auto. exact S.
  - assert (Hp : (ei_cursor s < length b)%nat) by (apply nth_error_Some; congruence). destruct fuel as [|fuel]; [lia|].
    cbn [app] in Hs, HF. inversion Hs as [|? ? Hs' Hall]; subst. inversion Hall as [|? ? Hle _]; subst. inversion HF as [|? ? Hin HF']; subst.
    pose proof (ei_step fuel b s t0 Ht Hle) as S. apply kinds_in in Hin as [k' Ek]. rewrite Ek in S. apply kinds_code in Ek. rewrite Ek in Hk. injection Hk as ->. rewrite Hi in S.
    destruct (next_cases m _ _ t0 Hc) as [Hx|[x Hx]]; rewrite Hx in S; [exact S|]. rewrite Hn in S. destruct S as (s' & -> & S1 & S2 & S3).
    destruct n as [|n].
    + exfalso. rewrite Nat.add_0_r in R. assert (q = ei_cursor s) by (eapply stuck; eassumption). subst q. rewrite Ht in Hq. injection Hq as <-.
      destruct (skipn_nth _ _ _ Ht) as [r Er]. assert (Bs : bytes (t0 :: r)) by (rewrite <- Er; apply bytes_skipn, B).
      pose proof (element_panic m t0 k r Bs Ek) as EP. rewrite <- Er in EP.
      destruct HC as [HC|[(D & E & _)|(H18 & _)]]; [| |discriminate].
      * apply EP in HC as [HC|(i' & HC & HP)]; [congruence|]. rewrite Hi in HC. apply Ok_inj in HC. subst i'. congruence.
      * rewrite D in Hn. pose proof (ie1_len_ge_debug _ _ Hn). lia.
    + eapply IH with (l0 := l0 ++ [t0]); [exact Hq|exact S1|rewrite S2; exact Hs'|exact HF'|rewrite <- app_assoc; exact HC|eapply counted_ext; [exact S3|]; eapply counted_next; eassumption|lia].
Qed.
End Ei.

Theorem error_indication_panic m b : bytes b -> (ErrorIndication_unmarshal m b = Panic <-> error_indication_crashes m b).
Proof.
  intros B. unfold ErrorIndication_unmarshal, error_indication_crashes. apply (umsg_shape m b _ (fun l n => total_overflows m l \/ (total_fits l b /\ elements_crash 26 [16; 133; 255] m b n))).
  - intros h n Hh E Hn Le. rewrite E. change (26 =? ERROR_INDICATION) with true. cbn [negb]. rewrite add16_total by (eapply u_len_max; eassumption). rewrite Hn. cbn [bind].
    set (s0 := mkEi _ _ _ _ _ _ _ _). assert (C0 : counted m [] (cs s0)).
    { intros t. unfold cs, s0. cbn. destruct (t =? 16); [auto|]. destruct (t =? 133); [auto|]. destruct (t =? 255); auto. }
    assert (X : ei_loop m (S (length b)) b s0 = Panic <-> elements_crash 26 [16; 133; 255] m b n).
    { split.
      - intros H. destruct (ei_crash m _ _ _ _ B C0 H) as (l & q & t & R & Hq & Hs & HF & HC). exists l, q, t. split; [exact R|]. split; [exact Hq|].
        split; [inversion Hs; assumption|]. split; [exact HF|exact HC].
      - intros (l & q & t & R & Hq & Hs & HF & HC). eapply crash_ei with (l0 := []); [exact R|exact B|exact Hq|reflexivity| |exact HF|exact HC|exact C0|lia].
        constructor; [exact Hs|]. apply Forall_forall. intros; cbn; lia. }
    rewrite bind_panic, X. pose proof (no_overflow_or m (h_length h)) as O. split.
    + intros [H|(F & [H|(r & _ & H)] & _)]; [auto|auto|]. destruct (_ && _)%bool; discriminate.
    + tauto.
  - intros h E. destruct (N.eqb_spec (msgtype h) ERROR_INDICATION); [contradiction|discriminate].
Qed.
