(* V1HangPkt.v - when decoding a GTPv1 packet does not come to an end. *)
From Coq Require Import Sorting.Sorted.
From Verif Require Import Base BaseFacts LabelsFacts V1U V1CHdr V1CIe V1CKind V1CMsg V1CTables V1CSpec V1CSafeSpec V1CMsgSpec V1CMsgFacts V1CMsgRead V1CMsgSafety V1CExact V1CHdrSafety V1CIeSafety V1USafety2 V1CrashSpec V1HangSpec V1Crash V1CrashIe V1CrashMsg V1CrashPkt V1CrashEi V1Hang V1HangIe.
Local Open Scope N_scope.

Lemma repeats_debug m s : element_repeats m s -> m = Release. Proof. intros (H & _). exact H. Qed.
Lemma next_release c : exists n, next_count Release c = Ok n.
Proof. unfold next_count. destruct c as [v|]; [|eauto]. unfold add8, ov. destruct (_ <? _); eauto. Qed.

Section Msg.
Context (code : N) (L : list field1) (T : table1) (HI : In (code, L, T) messages1) (m : mode).
Local Notation HT := (messages1_checked _ _ _ HI).
Definition hang_from (b : list N) (inc : N) (p : nat) : Prop :=
  exists l q t, read_up_to m b p l q /\ nth_error b q = Some t /\ StronglySorted N.le (inc :: l ++ [t]) /\
    Forall (fun u => In u (map f_code L)) (l ++ [t]) /\ element_repeats m (skipn q b).
Lemma loop_hang : forall fuel b p inc c fs, bytes b -> (1 <= fuel /\ length b < fuel + p)%nat -> msg1_loop T m fuel b p inc c fs = Diverge -> hang_from b inc p.
Proof.
  induction fuel as [|fuel IH]; intros b p inc c fs B Hf H; [lia|]. cbn [msg1_loop] in H.
  destruct (Nat.leb_spec (length b) p) as [Hp|Hp]; [discriminate|].
  destruct (nth_error b p) as [t|] eqn:En; [|apply nth_error_None in En; lia].
  unfold at_ in H. rewrite En in H. cbn [bind] in H.
  destruct (N.ltb_spec t inc) as [|Hle]; [discriminate|].
  destruct (find_arm (t_arms T) t) as [a|] eqn:Ea; [|discriminate].
  rewrite slice_from_ok in H by lia. cbn [bind] in H.
  pose proof (find_arm_kind _ _ _ HT _ _ Ea) as Ek.
  assert (Hin : In t (map f_code L)) by (apply (find_arm_known code L T HT); eauto).
  destruct (skipn_nth _ _ _ En) as [s Es].
  assert (Bs : bytes (t :: s)) by (rewrite <- Es; apply bytes_skipn, B).
  pose proof (element_zero m t (a_kind a) s Bs Ek) as EZ. rewrite <- Es in EZ.
  destruct (ie1_unmarshal (a_kind a) m (skipn p b)) as [i|e| |] eqn:Ei; [| |discriminate|contradiction (ie1_nd _ _ _ Ei)].
  - apply bind_diverge in H as [H|(n & Hn & H)].
    { exfalso. unfold next_count in H. destruct (c t); [|discriminate]. unfold add8, ov in H. destruct (_ <? _); [discriminate|]. destruct m; discriminate. }
    destruct (len_cases m i) as [Hl|[x Hl]]; rewrite Hl in H; cbn [bind] in H; [discriminate|]. destruct x as [|x].
    + exists [], p, t. split; [constructor|]. split; [exact En|]. cbn [app]. split; [constructor; [repeat constructor|constructor; [exact Hle|constructor]]|].
      split; [constructor; [exact Hin|constructor]|]. apply EZ. exists i. auto.
    + destruct (IH b (p + S x)%nat _ _ _ B ltac:(lia) H) as (l & q & u & R & Hq & Hs & HF & HC).
      exists (t :: l), q, u. split; [econstructor; eassumption|]. split; [exact Hq|]. split.
      { cbn [app]. constructor; [exact Hs|]. inversion Hs as [|? ? _ Hall]; subst. constructor; [exact Hle|].
        rewrite Forall_forall in Hall |- *. intros y Hy. specialize (Hall y Hy). lia. }
      split; [constructor; assumption|exact HC].
  - exfalso. apply bind_diverge in H as [H|(? & _ & H)]; [|discriminate]. destruct (a_err a); cbn [arm_error] in H; try discriminate.
    { destruct (_ =? _); discriminate. } destruct (c _); [destruct (_ <? _)|]; discriminate.
Qed.
Lemma here_hang b p t inc c fs fuel : bytes b -> nth_error b p = Some t -> inc <= t -> In t (map f_code L) -> element_repeats m (skipn p b) -> msg1_loop T m fuel b p inc c fs = Diverge.
Proof.
  intros B En Hle Hin HR. assert (Hp : (p < length b)%nat) by (apply nth_error_Some; congruence).
  pose proof (repeats_debug _ _ HR) as Em. revert inc c fs Hle. induction fuel as [|fuel IH]; intros inc c fs Hle; [reflexivity|]. cbn [msg1_loop].
  destruct (Nat.leb_spec (length b) p); [lia|]. unfold at_. rewrite En. cbn [bind]. destruct (N.ltb_spec t inc); [lia|].
  destruct (proj1 (find_arm_known code L T HT t) Hin) as [a Ea]. rewrite Ea. rewrite slice_from_ok by lia. cbn [bind]. pose proof (find_arm_kind _ _ _ HT _ _ Ea) as Ek.
  destruct (skipn_nth _ _ _ En) as [s Es]. assert (Bs : bytes (t :: s)) by (rewrite <- Es; apply bytes_skipn, B).
  pose proof (element_zero m t (a_kind a) s Bs Ek) as EZ. rewrite <- Es in EZ. apply EZ in HR as (i & Hi & Hl). rewrite Hi.
  destruct (next_release (c t)) as [n Hn]. rewrite <- Em in Hn. rewrite Hn. cbn [bind]. rewrite Hl. cbn [bind]. rewrite Nat.add_0_r. apply IH. lia.
Qed.
Lemma hang_loop b p l q : read_up_to m b p l q -> bytes b -> forall t inc c fs fuel, nth_error b q = Some t ->
  StronglySorted N.le (inc :: l ++ [t]) -> Forall (fun u => In u (map f_code L)) (l ++ [t]) -> element_repeats m (skipn q b) ->
  msg1_loop T m fuel b p inc c fs = Diverge.
Proof.
  intros R B. induction R as [p|p t0 k i n l q Ht Hk Hi Hn R IH]; intros t inc c fs fuel Hq Hs HF HC; cbn [app] in Hs, HF; inversion Hs as [|? ? Hs' Hall]; subst; inversion Hall as [|? ? Hle _]; subst; inversion HF as [|? ? Hin HF']; subst.
  - eapply here_hang; eassumption.
  - assert (Hp : (p < length b)%nat) by (apply nth_error_Some; congruence). destruct fuel as [|fuel]; [reflexivity|]. cbn [msg1_loop]. destruct (Nat.leb_spec (length b) p); [lia|].
    unfold at_. rewrite Ht. cbn [bind]. destruct (N.ltb_spec t0 inc); [lia|]. destruct (proj1 (find_arm_known code L T HT t0) Hin) as [a Ea]. rewrite Ea.
    rewrite slice_from_ok by lia. cbn [bind]. pose proof (find_arm_kind _ _ _ HT _ _ Ea) as Ek. rewrite Ek in Hk. injection Hk as <-. rewrite Hi.
    destruct (next_release (c t0)) as [x Hx]. rewrite <- (repeats_debug _ _ HC) in Hx. rewrite Hx. cbn [bind]. rewrite Hn. cbn [bind]. eapply IH; eassumption.
Qed.
Lemma loop_diverge_iff b p fs : bytes b -> (msg1_loop T m (S (length b)) b p 0 (fun _ => None) fs = Diverge <-> elements_hang (map f_code L) m b p).
Proof.
  intros B. split.
  - intros H. apply loop_hang in H as (l & q & t & R & Hq & Hs & HF & HC); [|exact B|lia]. exists l, q, t. split; [exact R|]. split; [exact Hq|].
    split; [inversion Hs; assumption|]. split; [exact HF|exact HC].
  - intros (l & q & t & R & Hq & Hs & HF & HC). eapply hang_loop; [exact R|exact B|exact Hq| |exact HF|exact HC].
    constructor; [exact Hs|]. apply Forall_forall. intros; lia.
Qed.
End Msg.

Lemma add16_total_d {A} m l b (k : N -> res A) (e : GTPV1Error) :
  ((let? tot := add16 m l 8 in if (N.to_nat tot <=? length b)%nat then k tot else Err e) = Diverge <->
   (total_fits l b /\ k ((l + 8) mod 65536) = Diverge /\ ~ total_overflows m l)).
Proof.
  unfold total_overflows, total_fits, nlen, add16, ov. destruct (N.ltb_spec (l + 8) 65536) as [H|H].
  - rewrite (N.mod_small (l + 8)) by exact H. cbn [bind]. destruct (Nat.leb_spec (N.to_nat (l + 8)) (length b)) as [K|K].
    + split; [intros E; split; [lia|split; [exact E|lia]]|]. intros (_ & E & _). exact E.
    + split; [discriminate|]. intros (? & _ & _). lia.
  - destruct m; cbn [bind].
    + split; [discriminate|]. intros (_ & _ & N). exfalso. apply N. split; [reflexivity|lia].
    + destruct (Nat.leb_spec (N.to_nat ((l + 8) mod 65536)) (length b)) as [K|K].
      * split; [intros E; split; [lia|split; [exact E|intros [? _]; discriminate]]|]. intros (_ & E & _). exact E.
      * split; [discriminate|]. intros (? & _ & _). lia.
Qed.
Lemma shape_d {A} m b (k : CHdr -> res A) (P : N -> nat -> Prop) code :
  (forall h n, chdr_unmarshal m b = Ok h -> c_msgtype h = code -> chdr_len m h = Ok n -> (k h = Diverge <-> P (c_length h) n)) ->
  (forall h, c_msgtype h <> code -> k h <> Diverge) ->
  (bind (chdr_unmarshal m b) k = Diverge <-> header_c_hangs m b \/ exists l n, read_c code m b l n /\ P l n).
Proof.
  intros HP HN. rewrite bind_diverge, chdr_diverge. split; (intros [H|H]; [left; exact H|right]).
  - destruct H as (h & Hh & H). destruct (N.eq_dec (c_msgtype h) code) as [E|E]; [|exfalso; eapply HN; eassumption].
    destruct (chdr_has_len _ _ _ Hh) as [n Hn]. exists (c_length h), n. split; [exists h; auto|]. apply (HP h n); assumption.
  - destruct H as (l & n & (h & Hh & E & <- & Hn) & H). exists h. split; [exact Hh|]. apply (HP h n); assumption.
Qed.
Theorem message_diverge code L T m b : In (code, L, T) messages1 -> bytes b ->
  (msg1_unmarshal T m b = Diverge <-> message_c_hangs code (map f_code L) m b).
Proof.
  intros HI B. unfold msg1_unmarshal, message_c_hangs. apply shape_d.
  - intros h n Hh E Hn. rewrite E, (tab_code code L T (messages1_checked _ _ _ HI)), N.eqb_refl. cbn [negb]. rewrite add16_total_d.
    rewrite Hn. cbn [bind]. rewrite bind_diverge. rewrite (loop_diverge_iff code L T HI m b n _ B). split.
    + intros (F & [H|(r & _ & H)] & _); [auto|]. destruct (forallb _ _) in H; discriminate.
    + intros (F & H). split; [exact F|]. split; [auto|]. intros [D _]. destruct H as (l & q & t & _ & _ & _ & _ & HR). apply repeats_debug in HR. congruence.
  - intros h E. rewrite (tab_code code L T (messages1_checked _ _ _ HI)). destruct (N.eqb_spec (c_msgtype h) code); [contradiction|]. cbn [negb]. discriminate.
Qed.

(* the messages without a loop over elements *)
Lemma nodiv_add8 m x y : nodiv (@add8 GTPV1Error m x y). Proof. unfold add8, ov. destruct (_ <? _), m; discriminate. Qed.
Lemma nodiv_add16 m x y : nodiv (@add16 GTPV1Error m x y). Proof. unfold add16, ov. destruct (_ <? _), m; discriminate. Qed.
Lemma nodiv_slice_from b i : nodiv (@slice_from GTPV1Error b i). Proof. unfold slice_from, slice. destruct (_ <=? _)%nat; discriminate. Qed.
Lemma nodiv_optional {A} (r : res A) : nodiv r -> nodiv (optional r). Proof. intros H. destruct r; try discriminate. contradiction. Qed.
Lemma nodiv_pe m s : nodiv (Pe_unmarshal m s).
Proof. pose proof (pe_alike m s) as A. unfold alike in A. intros H. rewrite H in A. exact A. Qed.
Lemma nodiv_cpe m s : nodiv (CPe_unmarshal m s).
Proof. intros H. apply (ie1_nd K1_Pe m s). cbn [ie1_unmarshal]. rewrite H. reflexivity. Qed.
Lemma nodiv_chdr_len m b h : chdr_unmarshal m b = Ok h -> nodiv (chdr_len m h).
Proof. intros H. destruct (chdr_has_len _ _ _ H) as [n Hn]. rewrite Hn. discriminate. Qed.
Lemma nodiv_hdr_size m b h : hdr_unmarshal m b = Ok h -> nodiv (get_header_size m h).
Proof. intros H. destruct (header_size_decoded _ _ _ H) as (n & Hn & _). rewrite Hn. discriminate. Qed.
Lemma c_only {A} m b (k : CHdr -> res A) : (forall h, chdr_unmarshal m b = Ok h -> nodiv (k h)) -> (bind (chdr_unmarshal m b) k = Diverge <-> header_c_hangs m b).
Proof. intros H. rewrite bind_diverge, chdr_diverge. split; [intros [D|(h & Hh & D)]; [exact D|contradiction (H h Hh D)]|auto]. Qed.
Lemma u_only {A} m b (k : Gtpv1Header -> res A) : (forall h, hdr_unmarshal m b = Ok h -> nodiv (k h)) -> (bind (hdr_unmarshal m b) k = Diverge <-> header_u_hangs m b).
Proof. intros H. rewrite bind_diverge, hdr_diverge. split; [intros [D|(h & Hh & D)]; [exact D|contradiction (H h Hh D)]|auto]. Qed.
Ltac nd := repeat first [apply nodiv_at|apply nodiv_slice|apply nodiv_slice_from|apply nodiv_add8|apply nodiv_add16|apply nodiv_optional|apply nodiv_pe|apply nodiv_cpe
  |eapply nodiv_chdr_len; eassumption|eapply nodiv_hdr_size; eassumption|apply nodiv_bind; [|intros ?]|discriminate|match goal with |- nodiv (if ?c then _ else _) => destruct c end].
Lemma nodiv_crec s : nodiv (CRecovery_unmarshal s). Proof. unfold CRecovery_unmarshal, tv_unmarshal. nd. Qed.
Lemma nodiv_rec s : nodiv (Rec_unmarshal s). Proof. unfold Rec_unmarshal. nd. Qed.
Lemma nodiv_ctl m s : nodiv (CEhtl_unmarshal m s). Proof. unfold CEhtl_unmarshal. nd. Qed.
Lemma nodiv_utl m s : nodiv (Ehtl_unmarshal m s). Proof. unfold Ehtl_unmarshal. nd. Qed.
Ltac inner lem := match goal with |- nodiv (match ?r with _ => _ end) => let E := fresh in destruct r eqn:E; [..|exfalso; revert E; apply lem]; nd end.
Ltac ndi lem := nd; repeat (first [apply lem|inner lem|progress cbv zeta]; nd).
Theorem vns_diverge m b : Vns_unmarshal m b = Diverge <-> header_c_hangs m b.
Proof. apply c_only. intros h Hh. nd. Qed.
Theorem echo_request_c_diverge m b : CEchoReq_unmarshal m b = Diverge <-> header_c_hangs m b.
Proof. apply c_only. intros h Hh. nd. Qed.
Theorem echo_response_c_diverge m b : CEchoResp_unmarshal m b = Diverge <-> header_c_hangs m b.
Proof. apply c_only. intros h Hh. ndi nodiv_crec. Qed.
Theorem extensions_c_diverge m b : CSup_unmarshal m b = Diverge <-> header_c_hangs m b.
Proof. apply c_only. intros h Hh. ndi nodiv_ctl. Qed.
Theorem plain_u_diverge code m b : Simple_unmarshal code m b = Diverge <-> header_u_hangs m b.
Proof. apply u_only. intros h Hh. nd. Qed.
Theorem echo_response_u_diverge m b : EchoResponse_unmarshal m b = Diverge <-> header_u_hangs m b.
Proof. apply u_only. intros h Hh. ndi nodiv_rec. Qed.
Theorem gpdu_diverge m b : Gpdu_unmarshal m b = Diverge <-> header_u_hangs m b.
Proof. apply u_only. intros h Hh. nd. Qed.
Theorem extensions_u_diverge m b : SupExtNotif_unmarshal m b = Diverge <-> header_u_hangs m b.
Proof. apply u_only. intros h Hh. ndi nodiv_utl. Qed.

(* Error Indication *)
Section Ei.
Context (m : mode).
Lemma ei_next fuel b s t : nth_error b (ei_cursor s) = Some t -> ei_increment s <= t ->
  match kinds t with
  | None => ei_loop m (S fuel) b s <> Diverge
  | Some k =>
    match ie1_unmarshal k m (skipn (ei_cursor s) b) with
    | Ok i => match next_count m (cs s t), ie1_len m i with
              | Ok n, Ok l => exists s', ei_loop m (S fuel) b s = ei_loop m fuel b s' /\ ei_cursor s' = (ei_cursor s + l)%nat /\ ei_increment s' = t
              | _, _ => ei_loop m (S fuel) b s <> Diverge
              end
    | _ => ei_loop m (S fuel) b s <> Diverge
    end
  end.
Proof.
  intros Ht Hi. assert (NC : forall c, nodiv (count m c)) by (intros [c|]; [apply nodiv_bind; [apply nodiv_add8|intros; discriminate]|discriminate]).
  assert (NX : forall c, next_count m c <> Diverge). { intros [c|]; cbn [next_count]; [apply nodiv_add8|discriminate]. }
  assert (NE : forall c e, next_count m c <> Err e). { intros [c|] e; cbn [next_count]; [unfold add8, ov; destruct (_ <? _), m; discriminate|discriminate]. }
  pose proof (ei_step m fuel b s t Ht Hi) as S. destruct (kinds t) as [k|] eqn:Ek.
  2:{ clear S. cbn [ei_loop]. destruct (_ <=? _)%nat; [discriminate|]. unfold at_. rewrite Ht. cbn [bind]. destruct (_ <? _); [discriminate|].
      assert (Hp : (ei_cursor s < length b)%nat) by (apply nth_error_Some; congruence). rewrite slice_from_ok by lia. cbn [bind]. unfold kinds in Ek.
      change TEID_DATA with 16. change GSN_ADDRESS with 133. change PRIVATE_EXTENSION with 255. destruct (t =? 16); [discriminate|]. destruct (t =? 133); [discriminate|]. destruct (t =? 255); discriminate. }
  destruct (ie1_unmarshal k m (skipn (ei_cursor s) b)) as [i|e| |] eqn:Ei; [| |congruence|contradiction (ie1_nd _ _ _ Ei)].
  - destruct (next_count m (cs s t)) as [n|e| |] eqn:En; [|contradiction (NE _ _ En)|congruence|contradiction (NX _ En)].
    destruct (len_cases m i) as [Hl|[x Hl]]; rewrite Hl in *; [congruence|]. destruct S as (s' & S1 & S2 & S3 & _). exists s'. auto.
  - clear S. cbn [ei_loop]. destruct (_ <=? _)%nat; [discriminate|]. unfold at_. rewrite Ht. cbn [bind]. destruct (_ <? _); [discriminate|].
    assert (Hp : (ei_cursor s < length b)%nat) by (apply nth_error_Some; congruence). rewrite slice_from_ok by lia. cbn [bind]. unfold kinds in Ek.
    change TEID_DATA with 16. change GSN_ADDRESS with 133. change PRIVATE_EXTENSION with 255. destruct (t =? 16).
    { injection Ek as <-. pose proof (teid_alike m (skipn (ei_cursor s) b)) as A. rewrite Ei in A. unfold alike in A. destruct (Teid_unmarshal _); try contradiction. discriminate. }
    destruct (t =? 133).
    { injection Ek as <-. pose proof (gsn_alike m (skipn (ei_cursor s) b)) as A. rewrite Ei in A. unfold alike in A. destruct (Gsn_unmarshal _ _); try contradiction. discriminate. }
    destruct (t =? 255); [|discriminate]. injection Ek as <-. pose proof (pe_alike m (skipn (ei_cursor s) b)) as A. rewrite Ei in A. unfold alike in A. destruct (Pe_unmarshal _ _); try contradiction. discriminate.
Qed.
Lemma ei_hang : forall fuel b s, bytes b -> (1 <= fuel /\ length b < fuel + ei_cursor s)%nat -> ei_loop m fuel b s = Diverge ->
  exists l q t, read_up_to m b (ei_cursor s) l q /\ nth_error b q = Some t /\ StronglySorted N.le (ei_increment s :: l ++ [t]) /\
    Forall (fun u => In u [16; 133; 255]) (l ++ [t]) /\ element_repeats m (skipn q b).
Proof.
  induction fuel as [|fuel IH]; intros b s B Hf H; [lia|].
  destruct (nth_error b (ei_cursor s)) as [t|] eqn:En.
  2:{ apply nth_error_None in En. cbn [ei_loop] in H. destruct (Nat.leb_spec (length b) (ei_cursor s)); [discriminate|lia]. }
  assert (Hp : (ei_cursor s < length b)%nat) by (apply nth_error_Some; congruence).
  destruct (N.ltb_spec t (ei_increment s)) as [K|Hle].
  { exfalso. cbn [ei_loop] in H. destruct (_ <=? _)%nat; [discriminate|]. unfold at_ in H. rewrite En in H. cbn [bind] in H. destruct (N.ltb_spec t (ei_increment s)); [discriminate|lia]. }
  pose proof (ei_next fuel b s t En Hle) as S. destruct (kinds t) as [k|] eqn:Ek; [|contradiction].
  assert (Hin : In t [16; 133; 255]) by (apply kinds_in; eauto). apply kinds_code in Ek.
  destruct (skipn_nth _ _ _ En) as [r Er]. assert (Bs : bytes (t :: r)) by (rewrite <- Er; apply bytes_skipn, B).
  pose proof (element_zero m t k r Bs Ek) as EZ. rewrite <- Er in EZ.
  destruct (ie1_unmarshal k m (skipn (ei_cursor s) b)) as [i|e| |] eqn:Ei; [|contradiction..].
  destruct (next_count m (cs s t)) as [n|e| |]; [|contradiction..]. destruct (ie1_len m i) as [x|e| |] eqn:Hl; [|contradiction..].
  destruct S as (s' & S & S1 & S2). rewrite S in H. destruct x as [|x].
  - exists [], (ei_cursor s), t. split; [constructor|]. split; [exact En|]. cbn [app]. split; [constructor; [repeat constructor|constructor; [exact Hle|constructor]]|].
    split; [constructor; [exact Hin|constructor]|]. apply EZ. exists i. auto.
  - destruct (IH b s' B ltac:(lia) H) as (l & q & u & R & Hq & Hs & HF & HC). rewrite S1 in R. rewrite S2 in Hs.
    exists (t :: l), q, u. split; [econstructor; eassumption|]. split; [exact Hq|]. split.
    { cbn [app]. constructor; [exact Hs|]. inversion Hs as [|? ? _ Hall]; subst. constructor; [exact Hle|].
      rewrite Forall_forall in Hall |- *. intros y Hy. specialize (Hall y Hy). lia. }
    split; [constructor; assumption|exact HC].
Qed.
Lemma hang_ei b p l q : read_up_to m b p l q -> bytes b -> forall t fuel s, nth_error b q = Some t -> ei_cursor s = p ->
  StronglySorted N.le (ei_increment s :: l ++ [t]) -> Forall (fun u => In u [16; 133; 255]) (l ++ [t]) -> element_repeats m (skipn q b) -> ei_loop m fuel b s = Diverge.
Proof.
  intros R B. induction R as [p|p t0 k i n l q Ht Hk Hi Hn R IH]; intros t fuel.
  - induction fuel as [|fuel IHf]; intros s Hq <- Hs HF HC; [reflexivity|]. cbn [app] in Hs, HF. inversion Hs as [|? ? _ Hall]; subst. inversion Hall as [|? ? Hle _]; subst. inversion HF as [|? ? Hin _]; subst.
    pose proof (ei_next fuel b s t Hq Hle) as S. apply kinds_in in Hin as [k Ek]. rewrite Ek in S. apply kinds_code in Ek.
    destruct (skipn_nth _ _ _ Hq) as [r Er]. assert (Bs : bytes (t :: r)) by (rewrite <- Er; apply bytes_skipn, B).
    pose proof (element_zero m t k r Bs Ek) as EZ. rewrite <- Er in EZ. pose proof HC as HC'. apply EZ in HC' as (i & Hi & Hl). rewrite Hi in S.
    destruct (next_release (cs s t)) as [n Hn]. rewrite <- (repeats_debug _ _ HC) in Hn. rewrite Hn, Hl in S. destruct S as (s' & -> & S1 & S2). rewrite Nat.add_0_r in S1.
    apply IHf; [assumption|exact S1|rewrite S2; repeat constructor; lia|assumption|assumption].
  - intros s Hq <- Hs HF HC. destruct fuel as [|fuel]; [reflexivity|]. cbn [app] in Hs, HF. inversion Hs as [|? ? Hs' Hall]; subst. inversion Hall as [|? ? Hle _]; subst. inversion HF as [|? ? Hin HF']; subst.
    pose proof (ei_next fuel b s t0 Ht Hle) as S. apply kinds_in in Hin as [k' Ek]. rewrite Ek in S. apply kinds_code in Ek. rewrite Ek in Hk. injection Hk as ->. rewrite Hi in S.
    destruct (next_release (cs s t0)) as [x Hx]. rewrite <- (repeats_debug _ _ HC) in Hx. rewrite Hx, Hn in S. destruct S as (s' & -> & S1 & S2).
    eapply IH; [exact Hq|exact S1|rewrite S2; exact Hs'|exact HF'|exact HC].
Qed.
End Ei.
Theorem error_indication_diverge m b : bytes b -> (ErrorIndication_unmarshal m b = Diverge <-> error_indication_hangs m b).
Proof.
  intros B. unfold ErrorIndication_unmarshal, error_indication_hangs. rewrite bind_diverge, hdr_diverge.
  assert (X : forall h n, hdr_unmarshal m b = Ok h -> get_header_size m h = Ok n -> (ei_loop m (S (length b)) b (mkEi n 0 None None None teid_default gsn_default None) = Diverge <-> elements_hang [16; 133; 255] m b n)).
  { intros h n Hh Hn. split.
    - intros H. apply ei_hang in H as (l & q & t & R & Hq & Hs & HF & HC); [|exact B|lia]. exists l, q, t. split; [exact R|]. split; [exact Hq|].
      split; [inversion Hs; assumption|]. split; [exact HF|exact HC].
    - intros (l & q & t & R & Hq & Hs & HF & HC). eapply hang_ei; [exact R|exact B|exact Hq|reflexivity| |exact HF|exact HC].
      constructor; [exact Hs|]. apply Forall_forall. intros; cbn; lia. }
  split; (intros [H|H]; [left; exact H|right]).
  - destruct H as (h & Hh & H). destruct (N.eqb_spec (msgtype h) ERROR_INDICATION) as [E|E]; cbn [negb] in H; [|discriminate].
    destruct (header_size_decoded _ _ _ Hh) as (n & Hn & _). rewrite add16_total_d in H. destruct H as (F & H & _). rewrite Hn in H. cbn [bind] in H.
    exists (h_length h), n. split; [exists h; auto|]. split; [exact F|]. apply bind_diverge in H as [H|(r & _ & H)]; [|destruct (_ && _)%bool; discriminate].
    apply (X h n Hh Hn). exact H.
  - destruct H as (l & n & (h & Hh & E & <- & Hn) & F & H). exists h. split; [exact Hh|]. rewrite E. change (26 =? ERROR_INDICATION) with true. cbn [negb]. rewrite add16_total_d. split; [exact F|]. split.
    + rewrite Hn. cbn [bind]. apply (X h n Hh Hn) in H. rewrite H. reflexivity.
    + intros [D _]. destruct H as (l & q & t & _ & _ & _ & _ & HR). apply repeats_debug in HR. congruence.
Qed.
