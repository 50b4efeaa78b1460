(* C71: which GTPv2-C packets crash a receiver. The conditions are in V2CrashSpec.v: [overruns s] says that the
   information element at the head of [s] uses octets that are not there, [looked_at m b s] that an element is read
   at [s] while [b] is decoded. *)
From Coq Require Import String.
From Verif Require Import Base BaseFacts V2Base V2BaseFacts V2Decoder V2DecFacts V2WireSpec V2CrashSpec V2CrashDec.
From Verif Require Import V2Msg V2MsgSpec V2MsgReadSpec V2MsgReadFacts V2MsgWire V2MsgLayouts.
From Verif Require PropsV2Msg PropsV2Ie.
Notation length := List.length.
Local Open Scope N_scope.

(* Decoding a list of elements panics exactly if it comes to an element that overruns; if it does not come to one, it
   returns elements or an error. In both build modes, unless an element declares more than 65531 octets (that case is
   C20_length_overflow_refuted and C19_release_refuted). *)
Theorem C71_decoder_crash : forall m b, Forall (fun o => o < 256) b -> (forall s, looked_at m b s -> declared s <= 65531) ->
  (decoder m b = Panic <-> exists s, looked_at m b s /\ overruns s) /\
  ((exists l, decoder m b = Ok l) \/ (exists e, decoder m b = Err e) \/ exists s, looked_at m b s /\ overruns s).
Proof.
  intros m b Hb H. pose proof (decoder_crash m b Hb H) as C. split; [apply crash_iff, C|].
  destruct C as [[P _]|[_ R]]; [right; right; exact P|]. destruct (decoder m b); try contradiction; eauto.
Qed.
Print Assumptions C71_decoder_crash.

(* Elements of the other kinds never crash the decoder: a type outside the 28 of the table has no condition. *)
Definition crashing_kinds : list N :=
  [71; 77; 86; 87; 90; 91; 103; 104; 105; 106; 107; 108; 129; 136; 142; 159; 162; 175; 177; 184; 186; 192; 205; 206; 212; 215; 254; 255].
Theorem C71_safe_kinds : forall m b, Forall (fun o => o < 256) b -> (forall s, looked_at m b s -> declared s <= 65531 /\ ~ In (oct s 0) crashing_kinds) ->
  (exists l, decoder m b = Ok l) \/ (exists e, decoder m b = Err e).
Proof.
  intros m b Hb H. destruct (C71_decoder_crash m b Hb (fun s K => proj1 (H s K))) as [_ [K|[K|(s & K & P & K1 & _)]]]; auto.
  exfalso. apply (proj2 (H s K)). apply (in_map fst) in K1. cbn [fst] in K1. revert K1. generalize (oct s 0). intros t K1. unfold crash_table in K1. cbn [map fst In] in K1. unfold crashing_kinds. cbn [In]. tauto.
Qed.
Print Assumptions C71_safe_kinds.
(* ... and each of the 28 does on some octets, which the theorem explains. *)
Theorem C71_crashing_kinds : forall t m, In t crashing_kinds -> exists b, oct b 0 = t /\ overruns b /\ decoder m b = Panic.
Proof.
  intros t m H.
  assert (K : forallb (fun t => existsb (fun b => (oct b 0 =? t) && forallb (fun o => o <? 256) b && negb (length b =? 0)%nat && (declared b <=? 65531)
      && negb (existsb (N.eqb t) grouped_codes)) PropsV2Ie.crashing) crashing_kinds = true) by (vm_compute; reflexivity).
  rewrite forallb_forall in K. specialize (K t H). apply existsb_exists in K as (b & K1 & K). rewrite !andb_true_iff in K. destruct K as [[[[K2 K3] K4] K5] K6].
  apply N.eqb_eq in K2. apply N.leb_le in K5. exists b. split; [exact K2|].
  pose proof PropsV2Ie.C20_crash_refuted as C. rewrite Forall_forall in C. specialize (C b K1 m). split; [|exact C].
  assert (P : decode_one (decoder m) m b = Panic).
  { assert (F : Forall (fun b => decode_one (decoder m) m b = Panic) PropsV2Ie.crashing) by (destruct m; repeat (apply Forall_cons; [vm_compute; reflexivity|]); apply Forall_nil).
    rewrite Forall_forall in F. exact (F b K1). }
  assert (B : Forall (fun o => o < 256) b) by (apply Forall_forall; intros o Ho; rewrite forallb_forall in K3; apply N.ltb_lt, K3, Ho).
  assert (G : ~ In (oct b 0) grouped_codes).
  { rewrite K2. intros G. apply negb_true_iff in K6. rewrite <- not_true_iff_false in K6. apply K6, existsb_exists. exists t. split; [exact G|apply N.eqb_refl]. }
  destruct (crash_decode_one (decoder m) m b False) as [[[D|[D _]] _]|[_ R]]; try assumption; try contradiction.
  - intros ->. discriminate K4.
  - rewrite P in R. contradiction.
Qed.
Print Assumptions C71_crashing_kinds.

(* Unmarshalling one of the messages panics exactly if the header can be read and has the type of the message, the
   packet has the octets the header declares, the message has elements at all, and
   - the declared length does not even cover the header the message is expected to have (8 octets, or 12 with a TEID), or
   - among its elements the decoder comes to one that overruns.
   In every other case it returns a message or an error. *)
Definition packet_crashes (m : mode) (name : String.string) (type : N) (b : list N) : Prop :=
  exists h, header_says b h /\ h2_msgtype h = type /\ name <> "VersionNotSupported"%string /\ h2_length h + 4 <= nlen b /\
    (h2_length h + 4 < N.of_nat (elements_from name) \/
     exists o s, element_octets name b h o /\ looked_at m o s /\ overruns s).

Theorem C71_message_crash : forall d L m b, In (d, L) gtpv2_messages -> Forall (fun o => o < 256) b ->
  (forall h o s, header_says b h -> element_octets (md_name d) b h o -> looked_at m o s -> declared s <= 65531) ->
  (msg_unmarshal d m b = Panic <-> packet_crashes m (md_name d) (md_type d) b) /\
  ((exists x, msg_unmarshal d m b = Ok x) \/ (exists e, msg_unmarshal d m b = Err e) \/ packet_crashes m (md_name d) (md_type d) b).
Proof.
  intros d L m b H Hb Hd.
  assert (C : crash (packet_crashes m (md_name d) (md_type d) b) (msg_unmarshal d m b)).
  { pose proof starts_from as S. rewrite forallb_forall in S. specialize (S _ H). cbn [fst snd] in S.
    unfold msg_unmarshal. pose proof (h2_returns b) as R. destruct (h2_unmarshal b) as [h|e| |] eqn:Hh; try contradiction.
    2:{ right. split; [|exact I]. intros (h & K & _). apply header_says_iff in K. congruence. }
    assert (U : forall h', header_says b h' -> h' = h) by (intros h' K; apply header_says_iff in K; congruence).
    apply header_says_iff in Hh. cbn [bind]. destruct (N.eqb_spec (h2_msgtype h) (md_type d)) as [Et|Et]; cbn [negb].
    2:{ right. split; [|exact I]. intros (h' & K & K1 & _). rewrite (U _ K) in K1. contradiction. }
    destruct (md_start d) as [s|].
    2:{ right. split; [|exact I]. intros (h' & _ & _ & K & _). apply andb_true_iff in S as [S _]. apply String.eqb_eq in S. contradiction. }
    apply andb_true_iff in S as [S1 S2]. apply Nat.eqb_eq in S1. subst s. apply negb_true_iff, String.eqb_neq in S2.
    unfold MANDATORY_HDR_LENGTH. destruct (Nat.leb_spec (N.to_nat (h2_length h) + 4) (length b)) as [Hl|Hl].
    2:{ right. split; [|exact I]. intros (h' & K & _ & _ & K1 & _). rewrite (U _ K) in K1. unfold nlen in K1. lia. }
    destruct (Nat.le_gt_cases (elements_from (md_name d)) (N.to_nat (h2_length h) + 4)) as [He|He].
    - set (o := firstn (N.to_nat (h2_length h) + 4 - elements_from (md_name d)) (skipn (elements_from (md_name d)) b)).
      assert (Eo : element_octets (md_name d) b h o) by (apply element_octets_iff; split; [split; assumption|reflexivity]).
      assert (Sl : slice b (elements_from (md_name d)) (N.to_nat (h2_length h) + 4) = Ok (E:=GTPV2Error) o).
      { unfold slice. replace (_ && _)%bool with true; [reflexivity|]. symmetry. apply andb_true_iff. split; apply Nat.leb_le; assumption. }
      rewrite Sl. cbn [bind].
      assert (Bo : Forall (fun x => x < 256) o) by (subst o; apply Forall_forall; intros x Hx; rewrite Forall_forall in Hb; apply Hb;
        rewrite <- (firstn_skipn (elements_from (md_name d)) b); apply in_or_app; right;
        rewrite <- (firstn_skipn (N.to_nat (h2_length h) + 4 - elements_from (md_name d)) (skipn (elements_from (md_name d)) b)); apply in_or_app; left; exact Hx).
      destruct (decoder_crash m o Bo (fun s K => Hd h o s Hh Eo K)) as [[(x & K1 & K2) ->]|[Hn Rd]].
      + left. split; [|reflexivity]. exists h. do 3 (split; [assumption|]). split; [unfold nlen; lia|]. right. exists o, x. auto.
      + right. split.
        * intros (h' & K & _ & _ & _ & [K1|(o' & x & K1 & K2)]); rewrite (U _ K) in *; [lia|].
          apply element_octets_iff in K1 as [_ ->]. apply Hn. exists x. exact K2.
        * destruct (decoder m o) as [l|e| |]; try contradiction; [|exact I]. cbn [bind]. unfold fromvec. destruct (decide _ _); exact I.
    - left. split.
      + exists h. do 3 (split; [assumption|]). split; [unfold nlen; lia|]. left. lia.
      + unfold slice. replace (_ && _)%bool with false; [reflexivity|]. symmetry. apply andb_false_iff. left. apply Nat.leb_gt. exact He. }
  split; [apply crash_iff, C|]. destruct C as [[P _]|[_ R]]; [right; right; exact P|]. destruct (msg_unmarshal d m b); try contradiction; eauto.
Qed.
Print Assumptions C71_message_crash.

(* An Update Bearer Request with a bearer context that holds an F-TEID cut short behind its flags: the receiver panics,
   and it does for the reason the theorem gives. *)
Definition short_fteid : list N := [87; 0; 5; 0; 128; 1; 2; 3; 4].
Definition update_bearer_with (o : list N) : list N := [72; 97] ++ enc16 (8 + nlen o) ++ [0; 0; 0; 9; 0; 0; 1; 0] ++ o.
Definition crashing_packet : list N := update_bearer_with ([93; 0; 9; 0] ++ short_fteid).
Example C71_witness_header : header_says crashing_packet (mkHdr2 97 false None 21 (Some 9) 1).
Proof. apply header_says_iff. vm_compute. reflexivity. Qed.
Example C71_witness_elements : element_octets "UpdateBearerRequest" crashing_packet (mkHdr2 97 false None 21 (Some 9) 1) ([93; 0; 9; 0] ++ short_fteid).
Proof. exists (firstn 12 crashing_packet), []. vm_compute. auto. Qed.
Example C71_witness_overruns : overruns short_fteid.
Proof. eexists. split; [do 6 right; left; reflexivity|]. vm_compute. split; [split; [discriminate|]|]; repeat constructor. Qed.
Example C71_witness_looked_at : forall m, looked_at m ([93; 0; 9; 0] ++ short_fteid) short_fteid.
Proof.
  intros m. apply look_inside; [vm_compute; tauto|split; vm_compute; [discriminate|repeat constructor]|]. apply look_here. discriminate.
Qed.
Example C71_witness_crash : forall m, packet_crashes m "UpdateBearerRequest" 97 crashing_packet.
Proof.
  intros m. exists (mkHdr2 97 false None 21 (Some 9) 1). split; [exact C71_witness_header|]. split; [reflexivity|]. split; [discriminate|]. split; [vm_compute; discriminate|].
  right. exists ([93; 0; 9; 0] ++ short_fteid), short_fteid. split; [exact C71_witness_elements|split; [apply C71_witness_looked_at|exact C71_witness_overruns]].
Qed.
(* With the four octets of the address the same packet is read. *)
Definition complete_packet : list N := update_bearer_with ([72; 0; 8; 0; 0; 0; 0; 1; 0; 0; 0; 1; 93; 0; 18; 0; 73; 0; 1; 0; 5; 87; 0; 9; 0; 128; 1; 2; 3; 4; 10; 0; 0; 1]).
Example C71_witness_returns : forall m, exists x, msg_unmarshal V2MsgTables.md_updatebearerreq m complete_packet = Ok x.
Proof. intros m. eexists. destruct m; vm_compute; reflexivity. Qed.
