(* PropsV1Amplify.v - C89: how much a GTPv1 packet can make a receiver hold and do. *)
From Verif Require Import Base BaseFacts V1Errors V1U V1UFacts V1CHdr V1CIe V1CKind V1CMsg V1CTables V1CExact V1Amplify.
Local Open Scope N_scope.

(* --- specification --------------------------------------------------------------------------------------------------- *)
(* How much there is in a message: the octets it takes to send it, that is the length of what its encoder puts in an empty buffer.
   A datagram that came over UDP has fewer than 65536 octets. *)
(* [decodes1 T m b c k]: from offset [c] on, [k] elements are decoded until the end of the packet. *)
Inductive decodes1 (T : table1) (m : mode) (b : list N) : nat -> nat -> Prop :=
| decodes1_end c : (length b <= c)%nat -> decodes1 T m b c 0
| decodes1_one c a i n k : (c < length b)%nat -> find_arm (t_arms T) (nth c b 0) = Some a -> ie1_unmarshal (a_kind a) m (skipn c b) = Ok i ->
    ie1_len m i = Ok n -> decodes1 T m b (c + n) k -> decodes1 T m b c (S k).

(* --- proofs ---------------------------------------------------------------------------------------------------------- *)
(* what the fields take beyond twelve octets each *)
Definition excess (fs : list (option ie1)) : nat := list_sum (map (fun f => length (opt_bytes ie1_marshal f) - 12)%nat fs).
Lemma excess_set : forall fs s i, (excess (set_field fs s i) <= excess fs + (length (ie1_marshal i) - 12))%nat.
Proof.
  unfold excess, list_sum. induction fs as [|f fs IH]; intros [|s] i; cbn [set_field map fold_right]; try lia.
  - cbn [opt_bytes]. lia.
  - specialize (IH s i). lia.
Qed.
Lemma fields_excess fs : (length (concat (map (opt_bytes ie1_marshal) fs)) <= excess fs + 12 * length fs)%nat.
Proof. unfold excess, list_sum. induction fs as [|f fs IH]; [apply le_n|]. cbn [map concat fold_right length]. rewrite app_length. lia. Qed.
Lemma set_field_len : forall fs s i, length (set_field fs s i) = length fs.
Proof. induction fs as [|f fs IH]; intros [|s] i; cbn [set_field length]; auto. Qed.
Definition is_pe (k : kind1) : bool := match k with K1_Pe => true | _ => false end.
Definition arm_pe (a : arm1) : bool := Bool.eqb (a_type a =? 255) (is_pe (a_kind a)) && (negb (is_pe (a_kind a)) || match a_slots a with One _ => true | _ => false end).
Lemma tables_pe T : In T tables1 -> forall a, In a (t_arms T) -> arm_pe a = true.
Proof.
  assert (H : forallb (fun T => forallb arm_pe (t_arms T)) tables1 = true) by reflexivity. intros HT a Ha. rewrite forallb_forall in H. specialize (H T HT). rewrite forallb_forall in H. apply H, Ha.
Qed.
Lemma tables_default T : In T tables1 -> excess (map s_default (t_slots T)) = 0%nat.
Proof.
  assert (H : forallb (fun T => (excess (map s_default (t_slots T)) =? 0)%nat) tables1 = true) by reflexivity. intros HT. rewrite forallb_forall in H. apply Nat.eqb_eq, H, HT.
Qed.
Lemma tables_slots T : In T tables1 -> (length (t_slots T) <= 39)%nat.
Proof.
  assert (H : forallb (fun T => (length (t_slots T) <=? 39)%nat) tables1 = true) by reflexivity. intros HT. rewrite forallb_forall in H. apply Nat.leb_le, H, HT.
Qed.
Lemma find_arm_in T t a : find_arm (t_arms T) t = Some a -> In a (t_arms T) /\ a_type a = t.
Proof. unfold find_arm. intros H. apply find_some in H as (H & Q). apply N.eqb_eq in Q. auto. Qed.
Lemma at_byte b i t : bytes b -> @at_ GTPV1Error b i = Ok t -> t < 256 /\ (i < length b)%nat /\ nth i b 0 = t.
Proof.
  intros B H. pose proof (at_lt _ _ _ H) as L. unfold at_ in H. destruct (nth_error b i) as [v|] eqn:E; [|discriminate]. apply Ok_inj in H. subst v.
  split; [|split; [exact L|apply nth_error_nth; exact E]]. apply nth_error_In in E. unfold bytes in B. rewrite Forall_forall in B. exact (B _ E).
Qed.
Lemma fits_skip m b c : fits m b -> fits m (skipn c b).
Proof. intros [H|H]; [left; exact H|right]. unfold nlen in *. rewrite skipn_length. lia. Qed.
Definition held (H : nat) (b : list N) (cursor : nat) (inc : N) (c : counts1) (fs : list (option ie1)) : Prop :=
  (c 255 = None /\ (H + excess fs <= 2 * Nat.min cursor (length b) + 2)%nat) \/ (c 255 <> None /\ inc = 255 /\ (H + excess fs <= 2 * length b + 2)%nat).
Lemma loop_held T m b H : In T tables1 -> bytes b -> fits m b -> forall f cursor inc c fs c' fs', held H b cursor inc c fs ->
  msg1_loop T m f b cursor inc c fs = Ok (c', fs') -> (H + excess fs' <= 2 * length b + 2)%nat /\ length fs' = length fs /\ exists k, decodes1 T m b cursor k /\ (k < f)%nat.
Proof.
  intros HT B F. induction f as [|f IH]; intros cursor inc c fs c' fs' I E; [discriminate|]. cbn [msg1_loop] in E. destruct (Nat.leb_spec (length b) cursor) as [D|D].
  { apply Ok_inj in E. injection E as <- <-. split; [destruct I as [I|I]; lia|]. split; [reflexivity|]. exists 0%nat. split; [apply decodes1_end; exact D|lia]. }
  apply bind_ok in E as (t & A & E). apply at_byte in A as (Tb & _ & A); [|exact B]. destruct (N.ltb_spec t inc) as [|Ti]; [discriminate|].
  destruct (find_arm (t_arms T) t) as [a|] eqn:FA; [|discriminate]. apply bind_ok in E as (r & R & E). apply from_len in R as (R1 & -> & R2).
  destruct (ie1_unmarshal (a_kind a) m (skipn cursor b)) as [i|e| |] eqn:U; try discriminate; [|destruct (arm_error (a_err a) inc (c t)); discriminate].
  apply bind_ok in E as (n & Nc & E). apply bind_ok in E as (l & L & E). pose proof (find_arm_in _ _ _ FA) as (AI & AT). pose proof (tables_pe T HT a AI) as P.
  unfold arm_pe in P. apply andb_prop in P as (P1 & P2). apply Bool.eqb_prop in P1. rewrite AT in P1.
  assert (G : held H b (cursor + l) t (put1 c t n) (match arm_target (a_slots a) (c t) with Some s => set_field fs s i | None => fs end)).
  { unfold held, put1. destruct (is_pe (a_kind a)) eqn:K.
    - apply N.eqb_eq in P1. subst t. rewrite P1 in *. rewrite N.eqb_refl. right. split; [discriminate|]. split; [reflexivity|].
      destruct (a_slots a); try discriminate. assert (KP : a_kind a = K1_Pe) by (destruct (a_kind a); discriminate || reflexivity). rewrite KP in U.
      cbn [ie1_unmarshal] in U. apply bind_ok in U as (x & X & U). apply Ok_inj in U. subst i. apply pe_size in X. rewrite R2 in X. cbn [ie1_marshal] in *.
      destruct (c 255) as [n0|] eqn:C.
      + cbn [arm_target]. destruct I as [(I & _)|(_ & _ & I)]; [congruence|exact I].
      + cbn [arm_target]. destruct I as [(_ & I)|(I & _)]; [|congruence]. pose proof (excess_set fs s (I1_Pe x)) as S. cbn [ie1_marshal] in S. lia.
    - apply N.eqb_neq in P1. assert (Q : 255 =? t = false) by (apply N.eqb_neq; congruence). rewrite Q. destruct I as [(I0 & I)|(_ & I0 & _)]; [|lia]. left. split; [exact I0|].
      assert (KN : a_kind a <> K1_Pe) by (intros Z; rewrite Z in K; discriminate).
      pose proof (ie_bounded _ _ _ _ _ (Forall_skip _ cursor _ B) (fits_skip _ _ cursor F) KN U L) as W. unfold bounded in W. rewrite R2 in W.
      destruct (arm_target (a_slots a) (c t)) as [s|]; [pose proof (excess_set fs s i)|]; lia. }
  apply IH in E; [|exact G]. destruct E as (E1 & E2 & k & E3 & E4). split; [exact E1|]. split; [rewrite E2; destruct (arm_target _ _); [apply set_field_len|reflexivity]|].
  exists (S k). split; [|lia]. eapply decodes1_one; [exact D|rewrite A; exact FA|exact U|exact L|exact E3].
Qed.
Lemma set_length_size b : length (set_length b) = length b.
Proof. unfold set_length. rewrite !set_nth_len. reflexivity. Qed.

(* The messages that are lists of elements. What is decoded takes at most twice the octets of the packet to send, and twelve for each field of the message, which has at most 39;
   the packet is read as a sequence of elements, at most one for each octet. *)
Theorem C89_messages : forall T m b x, In T tables1 -> bytes b -> m = Debug \/ nlen b < 65536 -> msg1_unmarshal T m b = Ok x ->
  (length (msg1_marshal x []) <= 2 * length b + 12 * length (m_fields x) + 2)%nat /\ (length (m_fields x) <= 39)%nat /\
  exists c k, chdr_len m (m_header x) = Ok c /\ decodes1 T m b c k /\ (k <= length b)%nat.
Proof.
  intros T m b x HT B F E. unfold msg1_unmarshal in E. apply bind_ok in E as (h & Hh & E). destruct (negb _); [discriminate|]. apply bind_ok in E as (s & _ & E).
  destruct (_ <=? _)%nat; [|discriminate]. apply bind_ok in E as (cur & C & E). apply bind_ok in E as ((c', fs') & L & E). cbn [fst snd] in E. destruct (forallb _ _); [|discriminate].
  apply Ok_inj in E. subst x. apply chdr_size in Hh as (n & N1 & N2 & N3 & N4). rewrite N1 in C. apply Ok_inj in C. subst cur.
  apply (loop_held T m b (length (chdr_marshal h)) HT B F) in L; [|left; split; [reflexivity|rewrite tables_default by exact HT; lia]].
  destruct L as (L1 & L2 & k & L3 & L4).
  rewrite map_length in L2. pose proof (tables_slots T HT). cbn [m_fields m_header]. rewrite L2. split; [|split; [lia|]].
  - unfold msg1_marshal, msg1_octets. cbn [app m_header m_fields]. rewrite set_length_size, app_length. pose proof (fields_excess fs') as X. rewrite L2 in X. lia.
  - exists n, k. split; [exact N1|]. split; [exact L3|]. lia.
Qed.

(* In a debug build, where sums that overflow stop the decoder, an element has two octets or more: there are at most half as many elements as octets. *)
Lemma element_two k b i n : ie1_unmarshal k Debug b = Ok i -> ie1_len Debug i = Ok n -> (2 <= n)%nat.
Proof.
  assert (L3 : forall A (x : Tlv A) n, len_u16 Debug x = Ok n -> (2 <= n)%nat).
  { intros A x p H. unfold len_u16 in H. apply bind_ok in H as (s & S & H). apply Ok_inj in H. subst p. apply add16_cases in S as [(_ & ->)|(S & _)]; [lia|discriminate]. }
  intros E L. destruct i; cbn [ie1_len] in L; try (exact (L3 _ _ _ L)); apply Ok_inj in L; subst n; apply Nat.leb_le; reflexivity.
Qed.
Lemma decodes1_half T b c k : decodes1 T Debug b c k -> (2 * k <= S (length b) - c)%nat.
Proof. induction 1 as [c C|c a i n k C FA U L D IH]; [lia|]. pose proof (element_two _ _ _ _ U L). lia. Qed.
Lemma decodes1_unique T m b c k : decodes1 T m b c k -> forall k', decodes1 T m b c k' -> k = k'.
Proof.
  induction 1 as [c C|c a i n k C FA U L D IH]; intros k' D'; inversion D' as [c' C' |c' a' i' n' k0 C' FA' U' L' D0]; subst; try lia.
  rewrite FA in FA'. injection FA' as <-. rewrite U in U'. apply Ok_inj in U'. subst i'. rewrite L in L'. apply Ok_inj in L'. subst n'. f_equal. apply IH, D0.
Qed.
Theorem C89_count : forall T m b c k, decodes1 T m b c k -> (forall k', decodes1 T m b c k' -> k' = k) /\ (m = Debug -> (2 * k <= S (length b) - c)%nat).
Proof.
  intros T m b c k D. split; [intros k' D'; symmetry; exact (decodes1_unique _ _ _ _ _ D _ D')|]. intros ->. exact (decodes1_half _ _ _ _ D).
Qed.

(* The four other messages of GTPv1-C: hardly more than the packet. A header with a sequence number alone is accepted when it ends after it, and is sent with two octets more. *)
Theorem C89_others : forall m b,
  (forall h, Vns_unmarshal m b = Ok h -> (length (Vns_marshal h []) <= length b + 2)%nat) /\
  (forall x, CEchoReq_unmarshal m b = Ok x -> (length (CEchoReq_marshal x []) <= length b + 2)%nat) /\
  (forall x, CEchoResp_unmarshal m b = Ok x -> (length (CEchoResp_marshal x []) <= length b + 2)%nat) /\
  (forall x, CSup_unmarshal m b = Ok x -> (length (CSup_marshal x []) <= length b + 2)%nat).
Proof.
  intros m b. split; [|split; [|split]].
  - intros h E. unfold Vns_unmarshal in E. apply bind_ok in E as (h' & Hh & E). destruct (_ =? _); [|discriminate]. apply Ok_inj in E. subst h'. apply chdr_size in Hh as (n & _ & N2 & N3 & _).
    unfold Vns_marshal. rewrite set_length_size. cbn [app]. lia.
  - intros x E. unfold CEchoReq_unmarshal in E. apply bind_ok in E as (h & Hh & E). destruct (_ =? _); [|discriminate]. apply chdr_size in Hh as (n & N1 & N2 & N3 & _).
    unfold CEchoReq_marshal. rewrite set_length_size. cbn [app]. rewrite app_length. destruct (_ <? _)%nat; [|apply Ok_inj in E; subst x; cbn [ceq_header ceq_pe opt_bytes length]; lia].
    rewrite N1 in E. cbn [bind] in E. apply bind_ok in E as (r & R & E). apply from_len in R as (R1 & -> & R2). apply bind_ok in E as (o & O & E). apply Ok_inj in E. subst x. cbn [ceq_header ceq_pe].
    destruct (CPe_unmarshal m _) as [pe| | |] eqn:P; cbn [optional] in O; try discriminate; apply Ok_inj in O; subst o; cbn [opt_bytes length]; [apply pe_size in P; rewrite P, R2; lia|lia].
  - intros x E. unfold CEchoResp_unmarshal in E. apply bind_ok in E as (h & Hh & E). destruct (_ =? _); [|discriminate]. apply chdr_size in Hh as (n & N1 & N2 & N3 & _).
    unfold CEchoResp_marshal. rewrite set_length_size. cbn [app]. rewrite app_length. destruct (_ <? _)%nat; [|discriminate]. rewrite N1 in E. cbn [bind] in E.
    destruct (Nat.ltb_spec n (length b)) as [C|]; [|discriminate]. apply bind_ok in E as (t & _ & E). destruct (_ =? _); [|discriminate]. apply bind_ok in E as (r & R & E).
    apply from_len in R as (_ & -> & R2). apply bind_ok in E as (rc & RC & E). assert (Q : (2 <= length b - n)%nat).
    { unfold CRecovery_unmarshal, tv_unmarshal in RC. destruct (Nat.leb_spec 2 (length (skipn n b))); [lia|discriminate]. }
    destruct (Nat.ltb_spec (n + 2) (length b)) as [C2|]; [|apply Ok_inj in E; subst x; cbn [cer_header cer_recovery cer_pe CRecovery_marshal app opt_bytes length]; lia].
    apply bind_ok in E as (r & R & E). apply from_len in R as (_ & -> & R3). apply bind_ok in E as (o & O & E). apply Ok_inj in E. subst x. cbn [cer_header cer_recovery cer_pe CRecovery_marshal app length].
    destruct (CPe_unmarshal m _) as [pe| | |] eqn:P; cbn [optional] in O; try discriminate; apply Ok_inj in O; subst o; cbn [opt_bytes length]; [apply pe_size in P; rewrite P, R3; lia|lia].
  - intros x E. unfold CSup_unmarshal in E. apply bind_ok in E as (h & Hh & E). destruct (negb _); [discriminate|]. apply chdr_size in Hh as (n & N1 & N2 & N3 & _).
    apply bind_ok in E as (s & _ & E). destruct (_ <=? _)%nat; [|discriminate]. rewrite N1 in E. cbn [bind] in E. destruct (_ =? _)%nat; [discriminate|]. apply bind_ok in E as (t & _ & E).
    destruct (_ =? _); [|discriminate]. apply bind_ok in E as (r & R & E). apply from_len in R as (R1 & -> & R2). destruct (CEhtl_unmarshal m _) as [i| | |] eqn:U; try discriminate. apply Ok_inj in E. subst x.
    unfold CSup_marshal. rewrite set_length_size. cbn [app cs_header cs_list]. rewrite app_length. unfold CEhtl_marshal. rewrite set_nth_len. cbn [app length].
    unfold CEhtl_unmarshal in U. apply bind_ok in U as (l & _ & U). apply bind_ok in U as (s2 & _ & U). destruct (_ <=? _)%nat; [|discriminate]. apply bind_ok in U as (v & V & U).
    apply Ok_inj in U. subst i. cbn [tlv_v]. apply from_len in V as (V1 & _ & V2). lia.
Qed.

(* GTP-U. The Long PDCP PDU Number is sent with eight octets, and four are enough to receive one: twice the packet. *)
Lemma upe_size m b x : Pe_unmarshal m b = Ok x -> length (Pe_marshal x) = length b.
Proof.
  unfold Pe_unmarshal. destruct (Nat.leb_spec 3 (length b)); [|discriminate]. intros E.
  apply bind_ok in E as (l1 & _ & E). apply bind_ok in E as (l2 & _ & E). destruct (_ =? 0); [discriminate|]. apply bind_ok in E as (ok & _ & E). destruct ok; [|discriminate].
  do 2 (apply bind_ok in E as (? & _ & E)). apply bind_ok in E as (v & V & E). apply Ok_inj in E. subst x. apply from_len in V as (V1 & _ & V2).
  unfold Pe_marshal, set_tlv_ie_length. rewrite !set_nth_len. cbn [pe_t pe_length pe_id pe_value app length enc16]. lia.
Qed.
Lemma ugsn_size m b x : Gsn_unmarshal m b = Ok x -> (length (Gsn_marshal x) <= 19)%nat.
Proof.
  unfold Gsn_unmarshal. destruct (3 <=? length b)%nat; [|discriminate]. intros E. apply bind_ok in E as (l1 & _ & E). apply bind_ok in E as (l2 & _ & E). destruct (_ =? 0); [discriminate|].
  apply bind_ok in E as (ok & _ & E). destruct ok; [|discriminate]. unfold Gsn_marshal, set_tlv_ie_length. rewrite !set_nth_len. destruct (_ =? 4).
  - do 4 (apply bind_ok in E as (? & _ & E)). apply Ok_inj in E. subst x. cbn. lia.
  - destruct (_ =? 16); [|discriminate]. destruct (_ <=? _)%nat; [|discriminate]. apply bind_ok in E as (o & O & E). apply Ok_inj in E. subst x. apply slice_len in O as (_ & O).
    cbn [gsn_t gsn_length gsn_ip ip_octets app length enc16]. lia.
Qed.
Lemma ei_held m b H : forall f s s', ei_loop m f b s = Ok s' ->
  (H <= 2 * ei_cursor s)%nat -> (H + length (opt_bytes Pe_marshal (s_pe s)) <= 2 * length b)%nat -> (length (Gsn_marshal (s_gsn s)) <= 19)%nat ->
  (H + length (opt_bytes Pe_marshal (s_pe s')) <= 2 * length b)%nat /\ (length (Gsn_marshal (s_gsn s')) <= 19)%nat.
Proof.
  induction f as [|f IH]; intros s s' E HC HP HG; [discriminate|]. cbn [ei_loop] in E. destruct (Nat.leb_spec (length b) (ei_cursor s)) as [C|C].
  { apply Ok_inj in E. subst s'. auto. }
  apply bind_ok in E as (t & _ & E). destruct (t <? ei_increment s); [discriminate|]. apply bind_ok in E as (r & R & E). apply from_len in R as (R1 & -> & R2). destruct (t =? TEID_DATA).
  { destruct (Teid_unmarshal _); try discriminate. apply bind_ok in E as (c & _ & E). apply IH in E; cbn [ei_cursor s_pe s_gsn] in *; auto; lia. }
  destruct (t =? GSN_ADDRESS).
  { destruct (Gsn_unmarshal m _) as [i| | |] eqn:U; try discriminate. apply bind_ok in E as (c & _ & E). apply bind_ok in E as (l & _ & E). apply IH in E; cbn [ei_cursor s_pe s_gsn] in *; auto; [lia|].
    destruct (is_some (c_gsn s)); [exact HG|]. exact (ugsn_size _ _ _ U). }
  destruct (t =? PRIVATE_EXTENSION); [|discriminate].
  destruct (Pe_unmarshal m _) as [i| | |] eqn:U; try discriminate. apply bind_ok in E as (c & _ & E). apply bind_ok in E as (l & _ & E). apply IH in E; cbn [ei_cursor s_pe s_gsn] in *; auto; [lia|].
  destruct (is_some (c_pe s)); [exact HP|]. cbn [opt_bytes]. apply upe_size in U. lia.
Qed.
Theorem C89_gtpu : forall m b,
  (forall mt x, Simple_unmarshal mt m b = Ok x -> (length (Simple_marshal x []) <= 2 * length b)%nat) /\
  (forall x, EchoResponse_unmarshal m b = Ok x -> (length (EchoResponse_marshal x []) <= 2 * length b)%nat) /\
  (forall x, ErrorIndication_unmarshal m b = Ok x -> (length (ErrorIndication_marshal x []) <= 2 * length b + 24)%nat) /\
  (forall x, Gpdu_unmarshal m b = Ok x -> (length (Gpdu_marshal x []) <= 2 * length b)%nat) /\
  (forall x, SupExtNotif_unmarshal m b = Ok x -> (length (SupExtNotif_marshal x []) <= 2 * length b)%nat).
Proof.
  intros m b. split; [|split; [|split; [|split]]].
  - intros mt x E. unfold Simple_unmarshal in E. apply bind_ok in E as (h & Hh & E). destruct (negb _); [discriminate|]. apply uhdr_size in Hh as (n & N1 & N2 & N3).
    unfold Simple_marshal. rewrite set_length_size. cbn [app]. rewrite app_length. destruct (_ <? _)%nat; [|apply Ok_inj in E; subst x; cbn [sm_header sm_private_ext opt_bytes length]; lia].
    rewrite N1 in E. cbn [bind] in E. apply bind_ok in E as (r & R & E). apply from_len in R as (R1 & -> & R2). apply bind_ok in E as (o & O & E). apply Ok_inj in E. subst x. cbn [sm_header sm_private_ext].
    destruct (Pe_unmarshal m _) as [pe| | |] eqn:P; cbn [optional] in O; try discriminate; apply Ok_inj in O; subst o; cbn [opt_bytes length]; [apply upe_size in P; rewrite P, R2; lia|lia].
  - intros x E. unfold EchoResponse_unmarshal in E. apply bind_ok in E as (h & Hh & E). destruct (negb _); [discriminate|]. apply uhdr_size in Hh as (n & N1 & N2 & N3).
    unfold EchoResponse_marshal. rewrite set_length_size. cbn [app]. rewrite app_length. destruct (_ <? _)%nat; [|discriminate]. rewrite N1 in E. cbn [bind] in E.
    destruct (Nat.ltb_spec n (length b)) as [C|]; [|discriminate]. apply bind_ok in E as (t & _ & E). destruct (_ =? _); [|discriminate]. apply bind_ok in E as (r & R & E).
    apply from_len in R as (_ & -> & R2). apply bind_ok in E as (rc & RC & E). assert (Q : (2 <= length b - n)%nat).
    { unfold Rec_unmarshal in RC. destruct (Nat.ltb_spec 1 (length (skipn n b))); [lia|discriminate]. }
    destruct (Nat.ltb_spec (n + 2) (length b)) as [C2|]; [|apply Ok_inj in E; subst x; cbn [er_header er_recovery er_private_ext Rec_marshal app opt_bytes length]; lia].
    apply bind_ok in E as (r & R & E). apply from_len in R as (_ & -> & R3). apply bind_ok in E as (o & O & E). apply Ok_inj in E. subst x. cbn [er_header er_recovery er_private_ext Rec_marshal app length].
    destruct (Pe_unmarshal m _) as [pe| | |] eqn:P; cbn [optional] in O; try discriminate; apply Ok_inj in O; subst o; cbn [opt_bytes length]; [apply upe_size in P; rewrite P, R3; lia|lia].
  - intros x E. unfold ErrorIndication_unmarshal in E. apply bind_ok in E as (h & Hh & E). destruct (negb _); [discriminate|]. apply uhdr_size in Hh as (n & N1 & N2 & N3).
    apply bind_ok in E as (tot & _ & E). destruct (_ <=? _)%nat; [|discriminate]. rewrite N1 in E. cbn [bind] in E. apply bind_ok in E as (s & S & E). destruct (_ && _); [|discriminate].
    apply Ok_inj in E. subst x. unfold ErrorIndication_marshal. rewrite set_length_size. cbn [app ei_header ei_teid ei_peer ei_private]. rewrite !app_length.
    apply (ei_held _ _ (length (hdr_marshal h))) in S as (S1 & S2); cbn [ei_cursor s_pe s_gsn opt_bytes length]; [cbn [length Teid_marshal app enc32]; lia|lia|lia|apply Nat.leb_le; reflexivity].
  - intros x E. unfold Gpdu_unmarshal in E. apply bind_ok in E as (h & Hh & E). destruct (negb _); [discriminate|]. apply uhdr_size in Hh as (n & N1 & N2 & N3).
    apply bind_ok in E as (tot & _ & E). destruct (Nat.leb_spec (N.to_nat tot) (length b)); [|discriminate]. rewrite N1 in E. cbn [bind] in E. apply bind_ok in E as (p & P & E). apply Ok_inj in E. subst x.
    unfold Gpdu_marshal. rewrite set_length_size. cbn [app gp_header gp_tpdu]. rewrite app_length. apply slice_len in P as (P1 & P2). lia.
  - intros x E. unfold SupExtNotif_unmarshal in E. apply bind_ok in E as (h & Hh & E). destruct (negb _); [discriminate|]. apply uhdr_size in Hh as (n & N1 & N2 & N3).
    apply bind_ok in E as (s & _ & E). destruct (_ <=? _)%nat; [|discriminate]. rewrite N1 in E. cbn [bind] in E. destruct (_ =? _)%nat; [discriminate|]. apply bind_ok in E as (t & _ & E).
    destruct (_ =? _); [|discriminate]. apply bind_ok in E as (r & R & E). apply from_len in R as (R1 & -> & R2). destruct (Ehtl_unmarshal m _) as [i| | |] eqn:U; try discriminate. apply Ok_inj in E. subst x.
    unfold SupExtNotif_marshal. rewrite set_length_size. cbn [app sn_header sn_list]. rewrite app_length. unfold Ehtl_marshal. rewrite set_nth_len. cbn [app length].
    unfold Ehtl_unmarshal in U. apply bind_ok in U as (l & _ & U). destruct (l =? 0); [discriminate|]. apply bind_ok in U as (s2 & _ & U). destruct (_ <=? _)%nat; [|discriminate]. apply bind_ok in U as (v & V & U).
    apply Ok_inj in U. subst i. cbn [ehtl_list]. apply from_len in V as (V1 & _ & V2). lia.
Qed.

(* The factor is attained: an End Marker with [k] such extension headers has 4 octets for each, and is sent with 8. *)
Definition long_headers (k : nat) : list N := concat (repeat [3; 1; 0; 0] k).
Definition long_marker (k : nat) : list N := [52; 254; 0; 1; 0; 0; 0; 1; 0; 0; 0] ++ long_headers k ++ [0].
Lemma long_headers_len k : length (long_headers k) = (4 * k)%nat.
Proof. unfold long_headers. induction k as [|k IH]; [reflexivity|]. cbn [repeat concat app length]. lia. Qed.
Lemma skip_here {A} (p q : list A) : skipn (length p) (p ++ q) = q.
Proof. rewrite skipn_app, skipn_all, Nat.sub_diag. reflexivity. Qed.
Lemma long_last k : exists z r, (long_headers k ++ [0]) = z :: r.
Proof. destruct k; unfold long_headers; cbn [repeat concat app]; eauto. Qed.
Lemma long_loop m : forall k p f d, (k < f)%nat -> exists l, ext_loop m f (p ++ long_headers k ++ [0]) (length p) d = Ok (d ++ l) /\ length l = k /\
  length (concat (map ext_marshal l)) = (8 * k)%nat /\ ext_len_sum m l = Ok (4 * k)%nat.
Proof.
  induction k as [|k IH]; intros p f d K; (destruct f as [|f]; [lia|]); cbn [ext_loop]; unfold slice_from; rewrite app_length; rewrite (proj2 (Nat.leb_le _ _)) by lia; cbn [bind];
    rewrite skip_here.
  - exists []. cbn. rewrite app_nil_r. auto.
  - destruct (long_last k) as (z & r & Z). unfold long_headers. cbn [repeat concat]. fold (long_headers k). rewrite <- app_assoc. rewrite Z. cbn [app].
    assert (U : ext_unmarshal m (3 :: 1 :: 0 :: 0 :: z :: r) = Ok (EH_LongPDCPPDUNumber (mkNumExt 3 1 (be32 0 0 0 z)))) by (destruct m; reflexivity).
    rewrite U. cbn [bind]. assert (L : ext_len m (EH_LongPDCPPDUNumber (mkNumExt 3 1 (be32 0 0 0 z))) = Ok 4%nat) by (destruct m; reflexivity). rewrite L. cbn [bind].
    destruct (IH (p ++ [3; 1; 0; 0]) f (d ++ [EH_LongPDCPPDUNumber (mkNumExt 3 1 (be32 0 0 0 z))])) as (l & L1 & L2 & L3 & L4); [lia|].
    rewrite Z, app_length in L1. cbn [length] in L1. rewrite <- app_assoc in L1. cbn [app] in L1.
    exists (EH_LongPDCPPDUNumber (mkNumExt 3 1 (be32 0 0 0 z)) :: l). rewrite L1. split; [rewrite <- app_assoc; reflexivity|]. split; [cbn [length]; lia|]. cbn [map concat]. rewrite app_length, L3.
    split; [cbn; lia|]. cbn [ext_len_sum]. rewrite L, L4. cbn [bind]. f_equal. lia.
Qed.
Theorem C89_factor : forall m k, exists x, EndMarker_unmarshal m (long_marker k) = Ok x /\ length (long_marker k) = (4 * k + 12)%nat /\ length (Simple_marshal x []) = (8 * k + 12)%nat.
Proof.
  intros m k. destruct (long_loop m k [] (S (length (long_headers k ++ [0]))) []) as (l & L1 & L2 & L3 & L4); [rewrite app_length, long_headers_len; lia|]. cbn [app length] in L1.
  assert (LB : length (long_marker k) = (4 * k + 12)%nat) by (unfold long_marker; rewrite !app_length, long_headers_len; cbn [length]; lia).
  assert (Hh : hdr_unmarshal m (long_marker k) = Ok (mkHdr 254 1 1 (Some 0) (Some 0) (Some l))).
  { unfold hdr_unmarshal. rewrite (proj2 (Nat.leb_le _ _)) by lia. unfold long_marker at 1 2 3 4 5 6 7 8. cbn [at_ app nth_error bind]. change (N.shiftr 52 5 =? 1) with true.
    change (N.shiftr (N.land 52 16) 4 =? 1) with true. cbn [andb]. change (be16 0 1 =? 0) with false. cbv iota. unfold hdr_flags. cbv iota beta.
    change (N.shiftr (N.land 52 2) 1) with 0. change (N.land 52 1) with 0. change (N.shiftr (N.land 52 4) 2) with 1. cbv iota. unfold hdr_optional, slice_from.
    rewrite (proj2 (Nat.leb_le 8 _)) by lia. cbn [bind]. rewrite skipn_length, LB. rewrite (proj2 (Nat.leb_le 4 _)) by lia. rewrite (proj2 (Nat.leb_le 11 _)) by lia.
    unfold long_marker. cbn [at_ app nth_error bind skipn]. unfold unmarshal_ext_hdr. rewrite L1. reflexivity. }
  eexists. split; [|split; [exact LB|]].
  - unfold EndMarker_unmarshal, Simple_unmarshal. rewrite Hh. cbn [bind msgtype]. change (negb (254 =? END_MARKER)) with false. cbv iota. cbn [h_length]. rewrite LB.
    rewrite (proj2 (Nat.ltb_lt _ _)) by (change (N.to_nat 1) with 1%nat; lia). unfold get_header_size. cbn [extension_headers]. rewrite L4. cbn [bind].
    unfold slice_from. rewrite (proj2 (Nat.leb_le _ _)) by lia. cbn [bind]. rewrite skipn_all2 by lia. cbn. reflexivity.
  - unfold Simple_marshal. rewrite set_length_size. cbn [sm_header sm_private_ext opt_bytes app]. rewrite app_nil_r. unfold hdr_marshal, marshal_ext_hdr.
    cbn [sequence_number npdu_number extension_headers app length enc16 enc32]. rewrite app_length, L3. cbn [length]. lia.
Qed.

(* examples: a Create PDP Context Response; an APN element of one label of 255 octets, none of them ASCII, is sent with almost twice the octets *)
Definition resp1 : list N := [50; 17; 0; 6; 0; 0; 0; 1; 0; 7; 0; 0; 1; 204].
Example C89_meets : exists x, msg1_unmarshal CreatePDPContextResponse_T Release resp1 = Ok x /\ length (msg1_marshal x []) = 14%nat /\ decodes1 CreatePDPContextResponse_T Release resp1 12 1.
Proof.
  eexists. split; [reflexivity|]. split; [reflexivity|]. eapply decodes1_one; [apply Nat.ltb_lt; reflexivity|reflexivity|reflexivity|reflexivity|]. apply decodes1_end. apply Nat.leb_le. reflexivity.
Qed.
Example C89_name : exists x, ie1_unmarshal K1_Apn Debug ([131; 1; 0; 255] ++ repeat 200 255) = Ok x /\ length (ie1_marshal x) = 514%nat.
Proof. eexists. split; [vm_compute; reflexivity|vm_compute; reflexivity]. Qed.
Print Assumptions C89_messages.
Print Assumptions C89_count.
Print Assumptions C89_others.
Print Assumptions C89_gtpu.
Print Assumptions C89_factor.
