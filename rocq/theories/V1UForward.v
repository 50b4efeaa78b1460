(* V1UForward.v - received GTP-U headers sent on: which of them are read back as the same values.
   Definitions used in the statements of C94 first, then lemmas. *)
From Verif Require Import BaseFacts OctetsFacts V1USpec V1UFacts V1UWireSpec V1UWireFacts V1UReadFacts.
Local Open Scope N_scope.

(* ----- for the statements ------------------------------------------------------------------------ *)
Definition exts (h : Gtpv1Header) : list ExtensionHeader :=
  match extension_headers h with Some l => l | None => [] end.
(* the length octet an extension header with a number in it has to have: it counts units of four
   octets. Containers and unknown headers come with as many octets as their length says. *)
Definition natural (e : ExtensionHeader) : Prop :=
  match e with
  | EH_PDCPPDUNumber x | EH_UDPPort x | EH_Sci x => ne_length x = 1
  | EH_LongPDCPPDUNumber x => ne_length x = 2
  | _ => True
  end.
(* the length field counts the octets after the first eight, in 16 bits *)
Definition length_right (h : Gtpv1Header) (body : list N) : Prop :=
  h_length h = (nlen (hdr_wire h 0 ++ body) - 8) mod 65536.
Definition private_right (o : option PrivateExtension) : Prop :=
  match o with Some x => pe_length x = (2 + nlen (pe_value x)) mod 65536 | None => True end.
(* all lengths natural but that of the last header, a long PDCP number in one unit of four octets *)
Definition short_last (h : Gtpv1Header) : Prop :=
  exists l x, exts h = l ++ [EH_LongPDCPPDUNumber x] /\ Forall natural l /\ ne_length x = 1 /\ ne_value x mod 256 = 0.

(* ----- what a receiver gets ---------------------------------------------------------------------- *)
Definition got_num (types : list N) (bound : N) (x : NumExt) : Prop :=
  In (ne_type x) types /\ 1 <= ne_length x <= 63 /\ ne_value x < bound.
Definition got_ext (e : ExtensionHeader) : Prop :=
  match e with
  | NoMoreExtensionHeaders => False
  | EH_PDCPPDUNumber x => got_num [192] 65536 x
  | EH_UDPPort x => got_num [64] 65536 x
  | EH_Sci x => got_num [32] 256 x
  | EH_LongPDCPPDUNumber x => got_num [3; 130] 16777216 x
  | EH_RanContainer x => be_type x = 129 /\ wf_blob x /\ bytes (be_container x)
  | EH_XwRanContainer x => be_type x = 131 /\ wf_blob x /\ bytes (be_container x)
  | EH_NrRanContainer x => be_type x = 132 /\ wf_blob x /\ bytes (be_container x)
  | EH_PduSessionContainer x => be_type x = 133 /\ wf_blob x /\ bytes (be_container x)
  | EH_Unknown x => byte (be_type x) /\ ~ In (be_type x) known_ext_types /\ wf_blob x /\ bytes (be_container x)
  end.
Definition units (e : ExtensionHeader) : N :=
  match e with
  | NoMoreExtensionHeaders => 0
  | EH_PDCPPDUNumber x | EH_UDPPort x | EH_Sci x | EH_LongPDCPPDUNumber x => ne_length x
  | EH_RanContainer x | EH_XwRanContainer x | EH_NrRanContainer x | EH_PduSessionContainer x | EH_Unknown x => be_length x
  end.
Fixpoint span (l : list ExtensionHeader) : N := match l with [] => 0 | e :: r => 4 * units e + span r end.
Definition hsize (h : Gtpv1Header) : N :=
  match extension_headers h, sequence_number h, npdu_number h with
  | None, None, None => 8
  | _, _, _ => 12 + span (exts h)
  end.

Lemma nth_byte i w : bytes w -> nth i w 0 < 256.
Proof.
  intros H. destruct (nth_in_or_default i w 0) as [Hi|E]; [|rewrite E; lia].
  exact (proj1 (Forall_forall _ _) H _ Hi).
Qed.
Lemma bytes_app (a b : list N) : bytes (a ++ b) <-> bytes a /\ bytes b.
Proof. apply Forall_app. Qed.
Lemma bytes_cons a (b : list N) : bytes (a :: b) <-> byte a /\ bytes b.
Proof. apply Forall_cons_iff. Qed.

Lemma units_meaning t l v w : units (ext_meaning t l v w) = l.
Proof. unfold ext_meaning. repeat match goal with |- context [if ?c then _ else _] => destruct c end; reflexivity. Qed.
Lemma got_meaning t l v w : t <> 0 -> byte t -> 1 <= l <= 63 -> nlen v + 2 = 4 * l -> bytes v -> bytes w -> got_ext (ext_meaning t l v w).
Proof.
  intros Ht Hb Hl Hv Bv Bw. unfold ext_meaning.
  pose proof (nth_byte 0 w Bw). pose proof (nth_byte 1 w Bw). pose proof (nth_byte 2 w Bw).
  assert (wf_blob (mkBlobExt t l v)) by (split; [exact Hl|exact Hv]).
  assert (forall k, wf_blob (mkBlobExt k l v)) by (intros k; split; [exact Hl|exact Hv]).
  repeat match goal with |- context [if ?c then _ else _] => destruct c eqn:? end;
    repeat match goal with H : _ || _ = true |- _ => apply orb_true_iff in H
                         | H : _ || _ = false |- _ => apply orb_false_iff in H; destruct H
                         | H : (_ =? _) = true |- _ => apply N.eqb_eq in H
                         | H : (_ =? _) = false |- _ => apply N.eqb_neq in H end;
    cbn [got_ext]; unfold got_num; cbn [ne_type ne_length ne_value be_type be_container In]; auto 10; repeat split; try lia; auto.
  - intros Hi. unfold known_ext_types in Hi. cbn [In] in Hi. lia.
  - cbn [be_length]. lia.
  - cbn [be_length]. lia.
Qed.
Lemma got_chain b l r : chain_is b l r -> bytes b -> Forall got_ext l /\ bytes r.
Proof.
  induction 1 as [r|t l v q xs r Ht Hl Hv Hr IH]; intros B.
  - apply bytes_cons in B as [_ B]. split; [constructor|exact B].
  - apply bytes_cons in B as [B1 B]. apply bytes_cons in B as [B2 B]. pose proof B as Bw. apply bytes_app in B as [B3 B4].
    destruct (IH B4) as [I1 I2]. split; [|exact I2]. constructor; [|exact I1]. apply got_meaning; assumption.
Qed.
Lemma chain_span b l r : chain_is b l r -> nlen b = span l + 1 + nlen r.
Proof.
  induction 1 as [r|t l v q xs r Ht Hl Hv Hr IH]; unfold nlen in *; cbn [span length] in *.
  - lia.
  - rewrite units_meaning, app_length. lia.
Qed.

Record got_header (h : Gtpv1Header) : Prop := mkGot {
  got_type : byte (msgtype h);
  got_len : 0 < h_length h < 65536;
  got_teid : u32 (teid h);
  got_seq : forall s, sequence_number h = Some s -> u16 s;
  got_np : forall s, npdu_number h = Some s -> byte s;
  got_opt : sequence_number h = None -> npdu_number h = None /\ extension_headers h = None;
  got_exts : Forall got_ext (exts h) }.
Ltac bytes_split := repeat match goal with H : bytes (_ :: _) |- _ => apply bytes_cons in H; destruct H end; unfold byte in *.
Lemma header_got b h r : header_is b h r -> bytes b -> got_header h /\ bytes r /\ nlen b = hsize h + nlen r.
Proof.
  intros H B. destruct H as [b0 t l1 l2 a b' c d r Hv Ht Hl HS HP HE|b0 t l1 l2 a b' c d s1 s2 n x q xs r Hv Ht Hl Ho Hx].
  - split; [|split].
    + bytes_split. constructor; cbn; try discriminate; auto; try (unfold byte, u16, u32; lia).
    + bytes_split; assumption.
    + unfold nlen, hsize. cbn. lia.
  - repeat (apply bytes_cons in B as [? B]). match goal with H : byte x |- _ => pose proof (proj2 (bytes_cons x q) (conj H B)) as Bx end.
    assert (K : Forall got_ext (if walks_extensions b0 then xs else []) /\ bytes r /\
                nlen q = (if walks_extensions b0 then span xs else 0) + nlen r).
    { destruct (walks_extensions b0).
      - destruct (got_chain _ _ _ Hx Bx). split; [assumption|]. split; [assumption|]. apply chain_span in Hx. unfold nlen in *. cbn [length] in Hx. lia.
      - subst q. split; [constructor|]. split; [exact B|]. lia. }
    destruct K as (K1 & K2 & K3). unfold byte in *. split; [|split].
    + constructor; cbn; try discriminate; auto; try (unfold byte, u16, u32; lia).
      * intros s [= <-]. unfold u16. lia.
      * intros s. destruct (flag_S b0 && negb (flag_PN b0)); [discriminate|]. intros [= <-]. assumption.
      * unfold exts. cbn. destruct (walks_extensions b0); exact K1.
    + exact K2.
    + unfold hsize, exts. cbn [extension_headers sequence_number npdu_number]. unfold nlen in *. cbn [length].
      destruct (walks_extensions b0); [|destruct (flag_S b0 && negb (flag_PN b0))]; cbn [span] in *; lia.
Qed.

(* ----- what is sent ------------------------------------------------------------------------------- *)
Lemma got_wire e : got_ext e -> ext_marshal e = ext_wire e.
Proof.
  destruct e as [|x|x|x|x|x|x|x|x|x]; cbn [got_ext ext_marshal ext_wire]; intros H; try reflexivity.
  - unfold Num16_marshal. rewrite enc16_oct by apply H. reflexivity.
  - unfold Num16_marshal. rewrite enc16_oct by apply H. reflexivity.
  - destruct H as (_ & _ & H). unfold Long_marshal. rewrite N.mod_small by lia.
    rewrite enc32_oct by (unfold u32; lia). unfold oct4, oct3. cbn [app].
    assert (E1 : ne_value x * 256 / 16777216 = ne_value x / 65536) by lia.
    assert (E2 : ne_value x * 256 / 65536 = ne_value x / 256) by lia.
    assert (E3 : ne_value x * 256 / 256 = ne_value x) by lia.
    assert (E4 : ne_value x * 256 mod 256 = 0) by lia.
    rewrite E1, E2, E3, E4. reflexivity.
Qed.
Lemma got_hdr_wire h n : got_header h -> n < 65536 -> hdr_marshal (with_length h n) = hdr_wire h n.
Proof.
  destruct h as [mt l t s k e]. intros [_ _ Ht Hs _ _ He] Hn. cbn [msgtype h_length teid sequence_number npdu_number extension_headers] in *.
  unfold exts in He. cbn [extension_headers] in He.
  assert (Hx : forall x, e = Some x -> map ext_marshal x = map ext_wire x).
  { intros x ->. apply map_ext_in. intros a Ha. apply got_wire. exact (proj1 (Forall_forall _ _) He a Ha). }
  unfold hdr_marshal, hdr_wire, construct_flags, marshal_ext_hdr, with_length. cbn [msgtype h_length teid sequence_number npdu_number extension_headers].
  rewrite (enc16_oct n Hn), (enc32_oct t Ht).
  destruct s as [s|], k as [k|], e as [e|]; cbn [is_some given or0];
    try rewrite (Hx e eq_refl); try rewrite (enc16_oct s (Hs s eq_refl)); cbn [app concat map]; rewrite ?app_nil_r; reflexivity.
Qed.
Lemma with_own h : with_length h (h_length h) = h.
Proof. destruct h; reflexivity. Qed.
Lemma got_framed h p : got_header h -> set_length (hdr_marshal h ++ p) = hdr_wire h ((nlen (hdr_wire h 0 ++ p) - 8) mod 65536) ++ p.
Proof.
  intros G. rewrite set_length_hdr. rewrite got_hdr_wire by (auto; apply N.mod_lt; discriminate).
  assert (E : nlen (hdr_marshal h ++ p) = nlen (hdr_wire h 0 ++ p)).
  { rewrite <- (with_own h) at 1. rewrite got_hdr_wire by (auto; apply (got_len _ G)). unfold nlen. rewrite !app_length, hdr_wire_length. reflexivity. }
  rewrite E. reflexivity.
Qed.
Lemma oct2_bytes n : n < 65536 -> bytes (oct2 n).
Proof. intros H. unfold oct2. repeat constructor; unfold byte; lia. Qed.
Lemma oct3_bytes n : n < 16777216 -> bytes (oct3 n).
Proof. intros H. unfold oct3. repeat constructor; unfold byte; lia. Qed.
Lemma oct4_bytes n : n < 4294967296 -> bytes (oct4 n).
Proof. intros H. unfold oct4. repeat constructor; unfold byte; lia. Qed.
Lemma ext_wire_bytes e : got_ext e -> bytes (ext_wire e).
Proof.
  destruct e as [|x|x|x|x|x|x|x|x|x]; cbn [got_ext ext_wire]; intros H; unfold got_num, wf_blob in H; cbn [In] in H;
    repeat (apply bytes_cons; split; [unfold byte; lia|]); rewrite ?bytes_app; repeat split;
    try apply oct2_bytes; try apply oct3_bytes; try (repeat constructor; unfold byte; lia); try tauto; try lia.
  destruct H as (H1 & _ & (H2 & _) & _). repeat constructor; [exact H1|unfold byte; lia].
Qed.
Lemma hdr_wire_bytes h n : got_header h -> n < 65536 -> bytes (hdr_wire h n).
Proof.
  intros [Hty _ Ht Hs Hn _ He] Hl. unfold hdr_wire.
  assert (K : bytes (oct2 (or0 (sequence_number h)) ++ [or0 (npdu_number h)] ++
               concat (map ext_wire (match extension_headers h with Some l => l | None => [] end)) ++ [0])).
  { rewrite !bytes_app. repeat split.
    - apply oct2_bytes. destruct (sequence_number h) as [s|]; cbn [or0]; [apply (Hs s eq_refl)|lia].
    - constructor; [|constructor]. destruct (npdu_number h) as [s|]; cbn [or0]; [apply (Hn s eq_refl)|reflexivity].
    - fold (exts h). induction He as [|e l H1 H2 IH]; cbn [map concat]; [constructor|]. apply bytes_app. split; [apply ext_wire_bytes, H1|exact IH].
    - repeat constructor. }
  rewrite !bytes_app. split; [|split; [|split]].
  - repeat constructor; [|exact Hty]. unfold byte. destruct (extension_headers h), (sequence_number h), (npdu_number h); cbn; lia.
  - apply oct2_bytes, Hl.
  - apply oct4_bytes, Ht.
  - destruct (extension_headers h), (sequence_number h), (npdu_number h); first [exact K|constructor].
Qed.

(* ----- the chain of extension headers, read back --------------------------------------------------- *)
Definition flat (l : list ExtensionHeader) : list N := concat (map ext_wire l).
Lemma flat_cons e l : flat (e :: l) = ext_wire e ++ flat l.
Proof. reflexivity. Qed.
Definition long_one (e : ExtensionHeader) : Prop :=
  exists x, e = EH_LongPDCPPDUNumber x /\ ne_length x = 1.
(* octets written against octets counted *)
Lemma written e : got_ext e ->
  (natural e /\ nlen (ext_wire e) = 4 * units e) \/ (~ natural e /\ nlen (ext_wire e) < 4 * units e) \/ (~ natural e /\ long_one e).
Proof.
  destruct e as [|x|x|x|x|x|x|x|x|x]; cbn [got_ext natural units ext_wire]; intros H; unfold got_num, wf_blob in H; cbn [In] in H;
    try contradiction; unfold nlen in *; cbn [length app oct2 oct3] in *; try (left; split; [exact I|lia]); try (destruct (N.eq_dec (ne_length x) 1); [left; lia|right; left; lia]).
  destruct (N.eq_dec (ne_length x) 2); [left; lia|]. destruct (N.eq_dec (ne_length x) 1) as [E|]; [|right; left; lia].
  right; right. split; [lia|]. exists x. auto.
Qed.
Lemma skipn_lead {A} n (a b : list A) : (n <= length a)%nat -> skipn n (a ++ b) = skipn n a ++ b.
Proof. intros H. rewrite skipn_app. replace (n - length a)%nat with 0%nat by lia. reflexivity. Qed.
Lemma skipn_far {A} n (a b : list A) : (length a <= n)%nat -> skipn n (a ++ b) = skipn (n - length a) b.
Proof. intros H. rewrite skipn_app, skipn_all2 by exact H. reflexivity. Qed.
Lemma skipn_skipn' {A} n k (l : list A) : skipn n (skipn k l) = skipn (k + n) l.
Proof. rewrite skipn_add. reflexivity. Qed.
(* one header of a chain, by where the next one is *)
Lemma chain_step b e l r : chain_is b (e :: l) r ->
  exists t k v q, b = t :: k :: v ++ q /\ t <> 0 /\ 1 <= k <= 63 /\ nlen v + 2 = 4 * k /\ e = ext_meaning t k v (v ++ q) /\
    chain_is (skipn (4 * N.to_nat (units e)) b) l r.
Proof.
  intros H. inversion H as [|t k v q xs r' Ht Hk Hv Hq E1 E2 E3]. exists t, k, v, q. repeat split; auto; try lia.
  rewrite units_meaning. unfold nlen in Hv.
  replace (4 * N.to_nat k)%nat with (2 + length v)%nat by lia. cbn [Nat.add skipn].
  rewrite skipn_app, skipn_all, Nat.sub_diag. exact Hq.
Qed.
(* once the reader is ahead of the writer it never meets it again *)
Lemma ahead l : forall s t r, Forall got_ext l -> (0 < s)%nat -> (s mod 4 = 0)%nat -> chain_is (skipn s (flat l ++ t)) l r ->
  nlen (flat l) < span l + N.of_nat s.
Proof.
  induction l as [|e l IH]; intros s t r G Hs Hm H.
  - unfold nlen. cbn [flat map concat length span]. lia.
  - inversion G as [|? ? G1 G2]; subst. destruct (chain_step _ _ _ _ H) as (t0 & k & v & q & E & Ht & Hk & Hv & Ee & H').
    rewrite flat_cons in *. rewrite skipn_skipn' in H'. rewrite <- app_assoc in H', E.
    set (w := length (ext_wire e)) in *.
    assert (Hw : nlen (ext_wire e) = N.of_nat w) by reflexivity.
    assert (Hmod : exists j, w = (4 * j)%nat /\ (1 <= j)%nat).
    { destruct (written e G1) as [[_ W]|[[_ W]|[_ (x & -> & W)]]].
      - exists (N.to_nat (units e)). rewrite Hw in W. rewrite Ee, units_meaning in *. lia.
      - destruct e as [|x|x|x|x|x|x|x|x|x]; cbn [got_ext] in G1; unfold got_num, wf_blob, nlen in *; cbn [ext_wire units length app oct2 oct3] in *;
          try contradiction; try (exists 1%nat; lia); try (exists 2%nat; lia); try (exfalso; lia).
      - exists 2%nat. cbn. lia. }
    destruct Hmod as (j & Hj & Hj1). unfold nlen. rewrite app_length. fold w. cbn [span].
    assert (Hgo : (w < s + 4 * N.to_nat (units e))%nat -> N.of_nat (w + length (flat l)) < 4 * units e + span l + N.of_nat s).
    { intros Hlt. rewrite skipn_far in H' by lia.
      specialize (IH (s + 4 * N.to_nat (units e) - w)%nat t r G2 ltac:(lia) ltac:(subst w; lia) H'). unfold nlen in IH. lia. }
    destruct (written e G1) as [[_ W]|[[_ W]|[_ (x & -> & W)]]]; try (apply Hgo; lia).
    cbn [units] in *. rewrite W in *. destruct (Nat.eq_dec s 4) as [->|]; [|apply Hgo; cbn in Hj; cbn; lia].
    exfalso. cbn [ext_wire oct3 app skipn] in E. injection E as _ <- _. lia.
Qed.
Ltac consts := repeat match goal with |- context [N.eqb ?a ?b] => let c := eval vm_compute in (N.eqb a b) in change (N.eqb a b) with c end; cbn [orb]; cbv iota.
Lemma reread e w : got_ext e -> natural e -> exists t k v,
  ext_wire e = t :: k :: v /\ t <> 0 /\ 1 <= k <= 63 /\ nlen v + 2 = 4 * k /\ ext_meaning t k v (v ++ w) = e.
Proof.
  destruct e as [|x|x|x|x|x|x|x|x|x]; cbn [got_ext natural ext_wire]; intros G Hn; unfold got_num, wf_blob in G; cbn [In] in G; try contradiction;
    destruct x as [ty ln va]; cbn [ne_type ne_length ne_value be_type be_length be_container] in *.
  1-4: eexists _, _, _; split; [reflexivity|]; unfold nlen, oct2, oct3; cbn [app]; cbn [length];
    split; [lia|]; split; [lia|]; split; [lia|]; unfold ext_meaning; cbn [nth app].
  - destruct G as ([<-|[]] & _ & Hv). consts. do 2 f_equal. lia.
  - destruct G as ([<-|[]] & _ & Hv). consts. do 2 f_equal. lia.
  - destruct G as ([<-|[<-|[]]] & _ & Hv); consts; do 2 f_equal; lia.
  - destruct G as ([<-|[]] & _ & Hv). consts. reflexivity.
  - destruct G as (-> & (G1 & G2) & _). exists 129, ln, va. repeat split; auto; lia.
  - destruct G as (-> & (G1 & G2) & _). exists 131, ln, va. repeat split; auto; lia.
  - destruct G as (-> & (G1 & G2) & _). exists 132, ln, va. repeat split; auto; lia.
  - destruct G as (-> & (G1 & G2) & _). exists 133, ln, va. repeat split; auto; lia.
  - destruct G as (_ & Hk & (G1 & G2) & _). exists ty, ln, va. unfold known_ext_types in Hk. cbn [In] in Hk.
    repeat split; auto; try lia. unfold ext_meaning.
    repeat match goal with |- context [?a =? ?b] => destruct (N.eqb_spec a b); [lia|] end. reflexivity.
Qed.
Lemma reread_chain l b : Forall got_ext l -> Forall natural l -> forall k r, chain_is b k r -> chain_is (flat l ++ b) (l ++ k) r.
Proof.
  intros G Hn k r Hb. induction l as [|e l IH]; [exact Hb|].
  inversion G; inversion Hn; subst. rewrite flat_cons, <- app_assoc.
  destruct (reread e (flat l ++ b)) as (t & n & v & E & H1' & H2' & H3' & E'); try assumption.
  rewrite E. cbn [app]. rewrite <- E' at 1. apply chain_is_more; auto.
Qed.
Lemma long_one_read x b l r : got_ext (EH_LongPDCPPDUNumber x) -> ne_length x = 1 ->
  chain_is (ext_wire (EH_LongPDCPPDUNumber x) ++ b) (EH_LongPDCPPDUNumber x :: l) r -> l = [] /\ ne_value x mod 256 = 0 /\ r = 0 :: 0 :: 0 :: b.
Proof.
  intros G E H. destruct (chain_step _ _ _ _ H) as (_ & _ & _ & _ & _ & _ & _ & _ & _ & H').
  cbn [units] in H'. rewrite E in H'. cbn [ext_wire oct3 app] in H'. change (4 * N.to_nat 1)%nat with 4%nat in H'. cbn [skipn] in H'.
  inversion H' as [? Ez El Er|? ? ? ? ? ? ? K]; subst; [auto|lia].
Qed.
Lemma reread_cases l b r : Forall got_ext l -> chain_is (flat l ++ 0 :: b) l r ->
  (Forall natural l /\ r = b) \/
  (exists k x, l = k ++ [EH_LongPDCPPDUNumber x] /\ Forall natural k /\ ne_length x = 1 /\ ne_value x mod 256 = 0 /\ r = 0 :: 0 :: 0 :: 0 :: b) \/
  (length r < length b)%nat.
Proof.
  induction l as [|e l IH]; intros G H.
  - left. split; [constructor|]. inversion H. reflexivity.
  - inversion G as [|? ? G1 G2]; subst. rewrite flat_cons, <- app_assoc in H.
    destruct (written e G1) as [[N1 W]|[[N1 W]|[N1 (x & -> & W)]]].
    + destruct (chain_step _ _ _ _ H) as (_ & _ & _ & _ & _ & _ & _ & _ & _ & H'). unfold nlen in W.
      rewrite skipn_far in H' by lia. replace (4 * N.to_nat (units e) - length (ext_wire e))%nat with 0%nat in H' by lia. cbn [skipn] in H'.
      destruct (IH G2 H') as [[I1 ->]|[(k & x & -> & I1 & I2)|I1]].
      * left. auto.
      * right; left. exists (e :: k), x. cbn [app]. auto.
      * right; right. exact I1.
    + right; right. pose proof (chain_span _ _ _ H) as Hs. destruct (chain_step _ _ _ _ H) as (t & n & v & q & _ & _ & Hn & _ & Ee & H').
      unfold nlen in *. rewrite skipn_far in H' by lia.
      assert (Hm : ((4 * N.to_nat (units e) - length (ext_wire e)) mod 4 = 0)%nat).
      { assert (exists j, length (ext_wire e) = (4 * j)%nat) as (j & Hj); [|rewrite Hj; lia].
        destruct e as [|x|x|x|x|x|x|x|x|x]; cbn [got_ext] in G1; unfold got_num, wf_blob, nlen in *; cbn [ext_wire units length app oct2 oct3] in *;
          try contradiction; try (exists 1%nat; lia); try (exists 2%nat; lia); try (exfalso; lia). }
      assert (Hp : (0 < 4 * N.to_nat (units e) - length (ext_wire e))%nat) by lia. pose proof (ahead l _ _ _ G2 Hp Hm H') as Ha. unfold nlen in Ha. cbn [span] in Hs.
      rewrite !app_length in Hs. cbn [length] in Hs. lia.
    + right; left. apply long_one_read in H as (-> & H1 & ->); [|exact G1|exact W]. exists [], x. cbn [app]. auto 10.
Qed.

(* ----- the header, read back ------------------------------------------------------------------------ *)
Lemma wire_size h n : nlen (hdr_wire h n) =
  match extension_headers h, sequence_number h, npdu_number h with None, None, None => 8 | _, _, _ => 12 + nlen (flat (exts h)) end.
Proof.
  unfold hdr_wire, nlen, exts, flat. rewrite !app_length.
  destruct (extension_headers h), (sequence_number h), (npdu_number h); unfold oct2, oct4; rewrite ?app_length; cbn [length concat map]; lia.
Qed.
Lemma natural_span l : Forall got_ext l -> Forall natural l -> nlen (flat l) = span l.
Proof.
  induction l as [|e l IH]; intros G H; [reflexivity|]. inversion G; inversion H; subst. rewrite flat_cons. cbn [span]. unfold nlen in *. rewrite app_length.
  destruct (written e) as [[_ W]|[[W _]|[W _]]]; try contradiction; try assumption. specialize (IH ltac:(assumption) ltac:(assumption)). unfold nlen in W. lia.
Qed.
Lemma natural_size h n : got_header h -> Forall natural (exts h) -> nlen (hdr_wire h n) = hsize h.
Proof.
  intros G H. rewrite wire_size. unfold hsize. rewrite (natural_span _ (got_exts _ G) H). reflexivity.
Qed.
Lemma wire_header h body xs r : got_header h -> exts h = xs ->
  (extension_headers h <> None -> chain_is (flat xs ++ 0 :: body) xs r) -> (extension_headers h = None -> r = body) ->
  header_is (hdr_wire h (h_length h) ++ body) h r.
Proof.
  intros [Hty Hl Ht Hs Hn Ho _] Ex Hc Hr. unfold exts in Ex.
  destruct h as [mt ln td s n e]. cbn [msgtype h_length teid sequence_number npdu_number extension_headers] in *.
  assert (El : ln = 256 * (ln / 256) + ln mod 256) by lia.
  assert (Et : td = 16777216 * (td / 16777216) + 65536 * ((td / 65536) mod 256) + 256 * ((td / 256) mod 256) + td mod 256) by lia.
  unfold hdr_wire. cbn [msgtype h_length teid sequence_number npdu_number extension_headers]. unfold oct2, oct4.
  destruct s as [s|].
  - assert (Es : s = 256 * (s / 256) + s mod 256) by lia. destruct e as [l|].
    + subst xs. assert (C : chain_is (flat l ++ 0 :: body) l r) by (apply Hc; discriminate). clear Hc Hr.
      destruct (flat l ++ 0 :: body) as [|x q] eqn:E; [destruct (flat l); discriminate|].
      assert (E' : (concat (map ext_wire l) ++ [0]) ++ body = x :: q) by (rewrite <- app_assoc; exact E).
      destruct n as [n|]; cbn [given or0 app]; rewrite E'.
      * pose proof (header_long 55 mt (ln / 256) (ln mod 256) (td / 16777216) ((td / 65536) mod 256) ((td / 256) mod 256) (td mod 256)
          (s / 256) (s mod 256) n x q l r eq_refl eq_refl ltac:(lia) eq_refl C) as K.
        cbn [flag_S flag_PN walks_extensions] in K. rewrite <- El, <- Et, <- Es in K. exact K.
      * pose proof (header_long 54 mt (ln / 256) (ln mod 256) (td / 16777216) ((td / 65536) mod 256) ((td / 256) mod 256) (td mod 256)
          (s / 256) (s mod 256) 0 x q l r eq_refl eq_refl ltac:(lia) eq_refl C) as K.
        rewrite <- El, <- Et, <- Es in K. exact K.
    + rewrite Hr by reflexivity. destruct n as [n|]; cbn [given or0 app map concat].
      * pose proof (header_long 51 mt (ln / 256) (ln mod 256) (td / 16777216) ((td / 65536) mod 256) ((td / 256) mod 256) (td mod 256)
          (s / 256) (s mod 256) n 0 body [] body eq_refl eq_refl ltac:(lia) eq_refl eq_refl) as K.
        rewrite <- El, <- Et, <- Es in K. exact K.
      * pose proof (header_long 50 mt (ln / 256) (ln mod 256) (td / 16777216) ((td / 65536) mod 256) ((td / 256) mod 256) (td mod 256)
          (s / 256) (s mod 256) 0 0 body [] body eq_refl eq_refl ltac:(lia) eq_refl eq_refl) as K.
        rewrite <- El, <- Et, <- Es in K. exact K.
  - destruct (Ho eq_refl) as [-> ->]. cbn [given app]. rewrite Hr by reflexivity.
    pose proof (header_short 48 mt (ln / 256) (ln mod 256) (td / 16777216) ((td / 65536) mod 256) ((td / 256) mod 256) (td mod 256) body
      eq_refl eq_refl ltac:(lia) eq_refl eq_refl eq_refl) as K.
    rewrite <- El, <- Et in K. exact K.
Qed.
Lemma wire_natural h body : got_header h -> Forall natural (exts h) -> header_is (hdr_wire h (h_length h) ++ body) h body.
Proof.
  intros G H. apply (wire_header h body _ body G eq_refl); [|reflexivity]. intros _.
  rewrite <- (app_nil_r (exts h)) at 2. apply reread_chain; [apply G|exact H|]. constructor.
Qed.
Lemma wire_short_last h body : got_header h -> short_last h -> header_is (hdr_wire h (h_length h) ++ body) h (0 :: 0 :: 0 :: 0 :: body).
Proof.
  intros G (l & x & E & Hn & H1 & H2). pose proof (got_exts _ G) as Gx. rewrite E in Gx. apply Forall_app in Gx as [G1 G2]. inversion G2 as [|? ? G3 _]; subst.
  apply (wire_header h body _ _ G E).
  - intros _. unfold flat. rewrite map_app, concat_app, <- app_assoc. apply reread_chain; [exact G1|exact Hn|].
    cbn [map concat ext_wire oct3 app]. cbn [got_ext] in G3. destruct G3 as (Ty & _ & Hv). destruct x as [ty ln va]. cbn [ne_type ne_length ne_value] in *. subst ln. rewrite H2.
    pose proof (chain_is_more ty 1 [va / 65536; (va / 256) mod 256] (0 :: 0 :: 0 :: 0 :: 0 :: body) [] (0 :: 0 :: 0 :: 0 :: body)) as K.
    assert (Em : ext_meaning ty 1 [va / 65536; (va / 256) mod 256] ([va / 65536; (va / 256) mod 256] ++ 0 :: 0 :: 0 :: 0 :: 0 :: body) =
                 EH_LongPDCPPDUNumber (mkNumExt ty 1 va)).
    { unfold ext_meaning. cbn [app nth]. cbn [In] in Ty. destruct Ty as [<-|[<-|[]]]; consts; do 2 f_equal; lia. }
    rewrite Em in K. apply K; try reflexivity; [cbn [In] in Ty; lia|lia|constructor].
  - intros E0. unfold exts in E. rewrite E0 in E. destruct l; discriminate.
Qed.
Lemma wire_cases h k body r : got_header h -> k < 65536 -> header_is (hdr_wire h k ++ body) h r ->
  h_length h = k /\ ((Forall natural (exts h) /\ r = body) \/ (short_last h /\ r = 0 :: 0 :: 0 :: 0 :: body) \/ (length r < length body)%nat).
Proof.
  intros G Hk H. pose proof (got_exts _ G) as Gx. pose proof (got_opt _ G) as Ho. unfold exts, short_last, exts in *.
  destruct h as [mt ln td s n e]. cbn [msgtype h_length teid sequence_number npdu_number extension_headers] in *.
  unfold hdr_wire in H. cbn [msgtype h_length teid sequence_number npdu_number extension_headers] in H. unfold oct2, oct4 in H.
  match type of H with header_is ?w ?g _ => remember w as w0 eqn:E1; remember g as g0 eqn:E2 end.
  destruct H as [b0 t l1 l2 a b' c d r Hv Ht Hl HS HP HE|b0 t l1 l2 a b' c d s1 s2 n' x q xs r Hv Ht Hl Hf Hx].
  - injection E2 as <- <- <- <- <- <-. cbn [given app] in E1. injection E1 as E0 El1 El2 _ _ _ _ Er. split; [lia|]. left. split; [constructor|exact Er].
  - injection E2 as <- <- <- <- <- <-. cbn [app] in E1. destruct (walks_extensions b0).
    + cbn [app] in E1. injection E1 as E0 El1 El2 _ _ _ _ _ _ _ E. split; [lia|].
      rewrite <- !app_assoc in E. cbn [app] in E. rewrite E in Hx.
      destruct (reread_cases xs body r Gx Hx) as [?|[(k' & y & -> & ? & ? & ? & ->)|?]]; eauto 12.
    + destruct (flag_S b0 && negb (flag_PN b0)); cbn [or0 app map concat] in E1; 
        assert (Eq : q = body) by congruence; assert (El1 : l1 = k / 256) by congruence; assert (El2 : l2 = k mod 256) by congruence;
        (split; [lia|]; left; split; [constructor|congruence]).
Qed.
