(* C75: the order of the information elements in a GTPv2-C packet does not matter, apart from the order of those that go
   into the same field. [carries d m b h l] (V2MsgSpec.v) says that the packet [b] has the header [h] and the elements [l];
   [belongs f e] that the field [f] is for elements like [e]. *)
From Coq Require Import String Permutation.
From Verif Require Import Base BaseFacts V2BaseFacts V2MsgWire PropsV2Ie PropsV2Msg.
Local Open Scope N_scope.

(* what the receiver gets is the same: the same fields or the same error *)
Definition same_answer (d : message_def) (m : mode) (b b' : list N) : Prop :=
  match msg_unmarshal d m b, msg_unmarshal d m b' with
  | Ok x, Ok y => msg_fields x = msg_fields y
  | Err u, Err v => u = v
  | _, _ => False
  end.

Lemma fromvec_same d L l l' : In (d, L) gtpv2_messages -> (forall f, In f L -> filter (fits f) l = filter (fits f) l') -> fromvec d l = fromvec d l'.
Proof.
  intros H S. pose proof (mk_good d L H) as G. unfold fromvec.
  assert (E1 : st_slots (fold_left (step d) l (mkSt (md_init d) [])) = st_slots (fold_left (step d) l' (mkSt (md_init d) []))).
  { rewrite !(run_slots d L G). unfold contents. apply map_ext_in. intros [i f] Hi. cbn [fst snd]. apply in_numbered, nth_error_In in Hi. rewrite (S f Hi). reflexivity. }
  assert (I1 : forall l1 l2, (forall f, In f L -> filter (fits f) l1 = filter (fits f) l2) -> forall k, flag_seen d l1 k -> flag_seen d l2 k).
  { intros l1 l2 S' k (r & e & Hr & Hk & He & Hm). exists r, e. split; [exact Hr|]. split; [exact Hk|]. split; [|exact Hm].
    destruct (arm_field d L G r Hr) as (f & Hf & _). assert (Hfit := matches_fits d L G r f e Hr Hf Hm).
    assert (K : In e (filter (fits f) l2)) by (rewrite <- (S' f (nth_error_In _ _ Hf)); apply filter_In; split; assumption). apply filter_In in K. tauto. }
  assert (E2 : forall k, flag_set (fold_left (step d) l (mkSt (md_init d) [])) k = flag_set (fold_left (step d) l' (mkSt (md_init d) [])) k).
  { intros k. pose proof (run_flags d L G l k) as F1. pose proof (run_flags d L G l' k) as F2.
    pose proof (I1 l l' S k) as J1. pose proof (I1 l' l (fun f Hf => eq_sym (S f Hf)) k) as J2.
    destruct (flag_set _ k), (flag_set _ k); try reflexivity; exfalso; [assert (false = true) by tauto|assert (false = true) by tauto]; discriminate. }
  assert (E3 : forall a b (F : forall k : nat, a k = b k) M, decide a M = decide b M).
  { intros a b' F M. induction M as [|[c o] M IH]; [reflexivity|]. cbn [decide]. rewrite IH.
    replace (forallb (fun p => Bool.eqb (b' (fst p)) (snd p)) c) with (forallb (fun p => Bool.eqb (a (fst p)) (snd p)) c); [reflexivity|].
    clear - F. induction c as [|p c IH]; [reflexivity|]. cbn [forallb]. rewrite F, IH. reflexivity. }
  rewrite (E3 _ _ E2), E1. reflexivity.
Qed.
Lemma same_answer_from d L m b b' h h' l l' : In (d, L) gtpv2_messages -> carries d m b h l -> carries d m b' h' l' -> fromvec d l = fromvec d l' -> same_answer d m b b'.
Proof.
  intros H C C' E. unfold same_answer. rewrite (unmarshal_carries d L m b h _ H C), (unmarshal_carries d L m b' h' _ H C'), <- E.
  unfold fromvec. destruct (decide _ _); reflexivity.
Qed.

(* Two packets give the same answer if for every field of the message they have the same elements in the same order. *)
Theorem C75_order : forall d L m b b' h h' l l', In (d, L) gtpv2_messages -> carries d m b h l -> carries d m b' h' l' ->
  (forall f, In f L -> exists s, sublist (belongs f) l s /\ sublist (belongs f) l' s) -> same_answer d m b b'.
Proof.
  intros d L m b b' h h' l l' H C C' S. eapply same_answer_from; try eassumption. eapply fromvec_same; [exact H|]. intros f Hf. destruct (S f Hf) as (s & S1 & S2).
  rewrite <- (sublist_unique _ _ _ _ S1 (sublist_filter _ _ l (fits_belongs f))). apply (sublist_unique _ _ _ _ S2 (sublist_filter _ _ l' (fits_belongs f))).
Qed.
Print Assumptions C75_order.
(* In particular if elements of the same kind keep their order. *)
Theorem C75_kinds : forall d L m b b' h h' l l', In (d, L) gtpv2_messages -> carries d m b h l -> carries d m b' h' l' ->
  (forall k, exists s, sublist (fun e => kind_of e = k) l s /\ sublist (fun e => kind_of e = k) l' s) -> same_answer d m b b'.
Proof.
  intros d L m b b' h h' l l' H C C' S. eapply C75_order; try eassumption. intros f Hf. destruct (S (f_kind f)) as (s & S1 & S2).
  assert (K : forall a b, sublist (fun e => kind_of e = f_kind f) a b -> filter (fits f) a = filter (fits f) b).
  { intros a c K. induction K as [|e a c E K IH|e a c E K IH]; [reflexivity| |]; cbn [filter].
    - rewrite IH. reflexivity.
    - destruct (fits f e) eqn:F; [|exact IH]. apply fits_belongs in F. destruct F as [F _]. contradiction. }
  exists (filter (fits f) s). rewrite <- (K _ _ S1) at 1. rewrite <- (K _ _ S2). split; apply sublist_filter, fits_belongs.
Qed.
Print Assumptions C75_kinds.
(* Neighbours may be exchanged unless one field is for both. *)
Theorem C75_swap : forall d L m b b' h h' l1 x y l2, In (d, L) gtpv2_messages ->
  carries d m b h (l1 ++ x :: y :: l2) -> carries d m b' h' (l1 ++ y :: x :: l2) ->
  (forall f, In f L -> belongs f x -> ~ belongs f y) -> same_answer d m b b'.
Proof.
  intros d L m b b' h h' l1 x y l2 H C C' S. eapply same_answer_from; try eassumption. eapply fromvec_same; [exact H|]. intros f Hf.
  rewrite !filter_app. f_equal. cbn [filter]. destruct (fits f x) eqn:Fx, (fits f y) eqn:Fy; try reflexivity.
  apply fits_belongs in Fx, Fy. exfalso. exact (S f Hf Fx Fy).
Qed.
Print Assumptions C75_swap.
(* If no field gets more than one element, any order will do. *)
Theorem C75_any_order : forall d L m b b' h h' l l', In (d, L) gtpv2_messages -> carries d m b h l -> carries d m b' h' l' -> Permutation l l' ->
  (forall f s, In f L -> sublist (belongs f) l s -> (length s <= 1)%nat) -> same_answer d m b b'.
Proof.
  intros d L m b b' h h' l l' H C C' P S. eapply same_answer_from; try eassumption. eapply fromvec_same; [exact H|]. intros f Hf.
  specialize (S f _ Hf (sublist_filter _ _ l (fits_belongs f))).
  assert (Q : Permutation (filter (fits f) l) (filter (fits f) l')).
  { clear - P. induction P as [|e l l' P IH|e e' l|l l' l'' P1 IH1 P2 IH2]; cbn [filter].
    - constructor.
    - destruct (fits f e); [constructor|]; exact IH.
    - destruct (fits f e), (fits f e'); try apply Permutation_refl. apply perm_swap.
    - etransitivity; eassumption. }
  destruct (filter (fits f) l) as [|e [|e' r]]; [symmetry; apply Permutation_nil, Q|symmetry; apply Permutation_length_1_inv, Q|cbn in S; lia].
Qed.
Print Assumptions C75_any_order.

(* A message arrives whatever the order in which the sender writes its elements, and whatever else it writes between
   them, as long as the elements of each field are in the order of the field and the others belong to no field. (Of a modify
   bearer command only the first bearer context is kept, see C26 and C28.) *)
Theorem C75_any_sender : forall d L x l m r, In (d, L) gtpv2_messages -> well_formed d L x ->
  (md_name d = "ModifyBearerCommand"%string -> (length (nth 1 (msg_fields x) []) <= 1)%nat) ->
  (forall i f, nth_error L i = Some f -> sublist (belongs f) l (nth i (msg_fields x) [])) ->
  Forall (fun e => ie_wf e /\ routed e) l -> let n := hdr_size (msg_header x) + nlen (concat (map ie_marshal l)) in n < 65536 ->
  msg_unmarshal d m (h2_marshal (with_length (msg_header x) n) ++ concat (map ie_marshal l) ++ r) = Ok (mkMsg (with_length (msg_header x) n) (msg_fields x)).
Proof.
  intros d L [h x] l m r H (Ht & Hs & Hp & Htd & Hte & Hpr & C & W) B S F n Sz. cbn [msg_header msg_fields] in *. change (concat (map ie_marshal l)) with (encoder l) in *.
  set (h' := with_length h n).
  assert (Wh : wf_hdr2 h').
  { unfold wf_hdr2, h', with_length, u16, u32. cbn [h2_msgtype h2_piggyback h2_prio h2_length h2_teid h2_sqn]. repeat split; auto.
    unfold n, hdr_size. destruct (h2_teid h) eqn:E; [lia|]. split; [lia|apply Hpr; reflexivity]. }
  pose proof teid_starts as TS. rewrite forallb_forall in TS. specialize (TS _ H). cbn [fst snd] in TS. rewrite app_assoc.
  destruct (md_start d) as [s|] eqn:Es.
  - assert (Cr : carries d m ((h2_marshal h' ++ encoder l) ++ r) h' l).
    { eapply marshal_carries; eauto. assert (X : (s = 12 /\ negb (existsb (String.eqb (md_name d)) without_teid) = true \/ s = 8 /\ existsb (String.eqb (md_name d)) without_teid = true)%nat).
      { pose proof starts_ok as S0. rewrite forallb_forall in S0. specialize (S0 _ H). unfold no_start_no_fields in S0. cbn [fst snd] in S0. rewrite Es in S0.
        rewrite orb_true_iff, !Nat.eqb_eq in S0. destruct S0 as [->| ->]; auto. }
      unfold hdr_size, h', with_length. cbn [h2_teid]. destruct X as [[-> X]|[-> X]].
      + destruct (h2_teid h); [reflexivity|]. rewrite negb_true_iff in X. exfalso. rewrite (proj2 (in_eqb _ _)) in X; [discriminate|]. apply Hte. reflexivity.
      + apply in_eqb, Hte in X. rewrite X. reflexivity. }
    rewrite (unmarshal_carries d L m _ h' _ H Cr). rewrite (fromvec_same d L l (tovec d x) H).
    + rewrite (fromvec_tovec d L x H C (whole d L x H C B)). reflexivity.
    + intros f Hf. apply In_nth_error in Hf as [i Hf]. rewrite (filter_tovec d L x i f (mk_good d L H) (mk_tovec d L H) C Hf).
      apply (sublist_unique _ _ _ _ (sublist_filter _ _ l (fits_belongs f)) (S i f Hf)).
  - rewrite andb_true_iff in TS. destruct TS as [_ TS]. destruct L; [|discriminate]. inversion C; subst x.
    unfold msg_unmarshal. rewrite <- app_assoc, h2_roundtrip by exact Wh. cbn [bind]. change (h2_msgtype h') with (h2_msgtype h). rewrite Ht, N.eqb_refl. cbn [negb]. rewrite Es.
    pose proof (g_length d [] (mk_good d [] H)) as G. destruct (md_init d); [reflexivity|discriminate].
Qed.
Print Assumptions C75_any_sender.

(* The order within a field does show, even if the instances differ: the addresses of a context response. *)
Definition address (ins x : N) : ie := IE_IpAddress (mkIe 74 4 ins (IpV4 [10; 0; 0; x])).
Theorem C75_vec_order : forall m, exists x y,
  msg_unmarshal md_contextresp m (packet 131 [w_cause 16 0; address 0 1; address 1 2]) = Ok x /\ nth 9 (msg_fields x) [] = [address 0 1; address 1 2] /\
  msg_unmarshal md_contextresp m (packet 131 [w_cause 16 0; address 1 2; address 0 1]) = Ok y /\ nth 9 (msg_fields y) [] = [address 1 2; address 0 1].
Proof.
  intros m. do 2 eexists. split; [destruct m; vm_compute; reflexivity|]. split; [reflexivity|]. split; [destruct m; vm_compute; reflexivity|reflexivity].
Qed.
Print Assumptions C75_vec_order.

(* --- cases ---------------------------------------------------------------------------------------------------- *)
Definition seq_imsi : ie := IE_Imsi (mkIe 1 8 1 (repeat 49 15)).
Ltac carry := eexists; (split; [vm_compute; reflexivity|]; split; [reflexivity|]; cbn [md_start md_updatebearerreq];
      split; [split; vm_compute; repeat constructor|vm_compute; reflexivity]).
Example C75_witness_order : (exists h, carries md_updatebearerreq Debug (packet 97 [w_bearer; w_ambr; w_bearer]) h [w_bearer; w_ambr; w_bearer]) /\
  (exists h, carries md_updatebearerreq Debug (packet 97 [w_bearer; w_bearer; w_ambr]) h [w_bearer; w_bearer; w_ambr]) /\
  (forall f, In f ly_updatebearerreq -> exists s, sublist (belongs f) [w_bearer; w_ambr; w_bearer] s /\ sublist (belongs f) [w_bearer; w_bearer; w_ambr] s) /\
  exists x, msg_unmarshal md_updatebearerreq Debug (packet 97 [w_bearer; w_bearer; w_ambr]) = Ok x.
Proof.
  split; [carry|]. split; [carry|]. split.
  - intros f Hf. exists (filter (fits f) [w_bearer; w_ambr; w_bearer]). split; [apply sublist_filter, fits_belongs|].
    assert (E : forallb (fun f => Nat.eqb (length (filter (fits f) [w_ambr])) 0 || Nat.eqb (length (filter (fits f) [w_bearer])) 0) ly_updatebearerreq = true) by (vm_compute; reflexivity).
    rewrite forallb_forall in E. specialize (E f Hf). replace (filter (fits f) [w_bearer; w_ambr; w_bearer]) with (filter (fits f) [w_bearer; w_bearer; w_ambr]); [apply sublist_filter, fits_belongs|].
    cbn [filter] in *. destruct (fits f w_ambr), (fits f w_bearer); try reflexivity. discriminate E.
  - eexists. vm_compute. reflexivity.
Qed.
Example C75_witness_kinds : forall k, exists s, sublist (fun e => kind_of e = k) [w_bearer; w_ambr; w_bearer] s /\ sublist (fun e => kind_of e = k) [w_bearer; w_bearer; w_ambr] s.
Proof.
  intros k. destruct (kind_eqb k K_BearerContext) eqn:E1; [apply kind_eqb_eq in E1; subst k; exists [w_bearer; w_bearer]; split; repeat (constructor; try reflexivity; try discriminate)|].
  assert (N1 : kind_of w_bearer <> k) by (intros <-; discriminate E1).
  destruct (kind_eqb k K_ApnAmbr) eqn:E2; [apply kind_eqb_eq in E2; subst k; exists [w_ambr]|assert (N2 : kind_of w_ambr <> k) by (intros <-; discriminate E2); exists []]; split; repeat (constructor; try reflexivity; try assumption; try discriminate).
Qed.
Example C75_witness_any_order : (exists h, carries md_updatebearerreq Debug (packet 97 [seq_imsi; w_ambr; w_bearer]) h [seq_imsi; w_ambr; w_bearer]) /\
  Permutation [seq_imsi; w_ambr; w_bearer] [w_bearer; seq_imsi; w_ambr] /\
  (forall f s, In f ly_updatebearerreq -> sublist (belongs f) [seq_imsi; w_ambr; w_bearer] s -> (length s <= 1)%nat).
Proof.
  split; [carry|]. split; [apply Permutation_sym, (Permutation_cons_app [seq_imsi; w_ambr] []); apply Permutation_refl|].
  intros f s Hf S. rewrite (sublist_unique _ _ _ _ S (sublist_filter _ _ _ (fits_belongs f))).
  assert (E : forallb (fun f => Nat.leb (length (filter (fits f) [seq_imsi; w_ambr; w_bearer])) 1) ly_updatebearerreq = true) by (vm_compute; reflexivity).
  rewrite forallb_forall in E. apply Nat.leb_le, E, Hf.
Qed.
