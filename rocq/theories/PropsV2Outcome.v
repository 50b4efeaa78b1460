(* PropsV2Outcome.v - C98 for GTPv2-C: every octet string is either a message, or has a fault that its octets show or is fatal
   to the receiver (builds with overflow checks). What is a message is specified in V2MsgReadSpec.v, the faults in V2ErrSpec.v,
   what is fatal in V2LongSpec.v. *)
From Coq Require Import String.
From Verif Require Import BaseFacts V2Base V2Msg V2MsgTables V2MsgLayouts V2ListSpec V2MsgSpec V2MsgReadSpec V2MsgReadFacts V2ErrSpec V2ErrLoop.
From Verif Require PropsV2Hang PropsV2ErrExact.
Import ListNotations.
Local Open Scope N_scope.

(* REMARK: as in V2ErrSpec.v, what follows the header of a Version Not Supported Indication is not looked at, and an
   Identification Response may lack any element. *)
Inductive faulty (name : string) (code : N) (L : layout) (b : list N) : Prop :=
| fa_header e : header_reports b e -> faulty name code L b
| fa_type h : header_says b h -> h2_msgtype h <> code -> faulty name code L b
| fa_length h : name <> "VersionNotSupported"%string -> header_says b h -> h2_msgtype h = code -> nlen b < h2_length h + 4 ->
    faulty name code L b
| fa_element h s e : name <> "VersionNotSupported"%string -> header_says b h -> h2_msgtype h = code -> element_octets name b h s ->
    stops_with s e -> faulty name code L b
| fa_missing h s l f : name <> "VersionNotSupported"%string -> name <> "IdentificationResponse"%string ->
    header_says b h -> h2_msgtype h = code -> element_octets name b h s -> octets_say s l -> In f L -> missing f l -> faulty name code L b.

Notation fatal d b := (PropsV2Hang.packet_crashes Debug (md_name d) (md_type d) b).

Lemma faulty_refused d L b : In (d, L) gtpv2_messages -> bytes b -> faulty (md_name d) (md_type d) L b -> ~ fatal d b -> exists e, msg_unmarshal d Debug b = Err e.
Proof.
  intros HI Hb [e H|h H T|h NV H T Q|h s e NV H T Q S|h s l f NV NI H T Q S F M] NF.
  - eauto using PropsV2ErrExact.by_header.
  - eauto using PropsV2ErrExact.by_type.
  - exists MessageInvalidMessageFormat. exact (PropsV2ErrExact.by_octets d L b HI h NV H T Q).
  - destruct (PropsV2ErrExact.by_stop d L b HI Hb h s e NV H T Q S) as (e' & _ & E); [|exact (PropsV2ErrExact.no_hang d L b HI Hb)|eauto].
    intros C. apply NF, (PropsV2Hang.C71_message_exact d L Debug b HI Hb), C.
  - destruct (PropsV2ErrExact.by_missing d L b HI Hb h s l f NV NI H T Q S F M) as (t & E). eauto.
Qed.
Lemma refused_faulty d L b e : In (d, L) gtpv2_messages -> bytes b -> msg_unmarshal d Debug b = Err e -> faulty (md_name d) (md_type d) L b.
Proof.
  intros HI Hb U. destruct (message_refused d L b e HI Hb U) as [e R|h Gh Gt|h NV Gh Gt Go|h s e NV Gh Gt Go Gs|h s l f t NV NI Gh Gt Go Gs Gf Gm Gc];
    [eapply fa_header|eapply fa_type|eapply fa_length|eapply fa_element|eapply fa_missing]; eassumption.
Qed.
Lemma said_not_faulty d L b x : In (d, L) gtpv2_messages -> bytes b -> message_says (md_name d) (md_type d) L b x -> ~ faulty (md_name d) (md_type d) L b.
Proof.
  intros HI Hb HS HF. apply (message_says_iff d L b x HI Hb) in HS. destruct (faulty_refused d L b HI Hb HF) as (e & E).
  - intros C. apply (PropsV2Hang.C71_message_exact d L Debug b HI Hb) in C. congruence.
  - congruence.
Qed.

(* one message and neither fault nor crash, or no message and at least one of them *)
Theorem C98_gtpv2 : forall d L b, In (d, L) gtpv2_messages -> bytes b ->
  ((exists! x, message_says (md_name d) (md_type d) L b x) /\ ~ faulty (md_name d) (md_type d) L b /\ ~ fatal d b) \/
  ((forall x, ~ message_says (md_name d) (md_type d) L b x) /\ (faulty (md_name d) (md_type d) L b \/ fatal d b)).
Proof.
  intros d L b HI Hb. pose proof (fun x => message_says_iff d L b x HI Hb) as HS. pose proof (PropsV2Hang.C71_message_exact d L Debug b HI Hb) as HF.
  destruct (msg_unmarshal d Debug b) as [x|e| |] eqn:U.
  - left. split; [exists x; split; [apply HS; reflexivity|intros y Hy; apply HS in Hy; apply Ok_inj in Hy; exact Hy]|]. split.
    + apply (said_not_faulty d L b x HI Hb), HS. reflexivity.
    + intros C. apply HF in C. discriminate.
  - right. split; [intros x Hx; apply HS in Hx; discriminate|left; exact (refused_faulty d L b e HI Hb U)].
  - right. split; [intros x Hx; apply HS in Hx; discriminate|right; apply HF; reflexivity].
  - destruct (PropsV2ErrExact.no_hang d L b HI Hb U).
Qed.
Print Assumptions C98_gtpv2.

(* and what the receiver gets: the message, a crash, or for other faulty packets an error *)
Theorem C98_gtpv2_received : forall d L b, In (d, L) gtpv2_messages -> bytes b ->
  (forall x, msg_unmarshal d Debug b = Ok x <-> message_says (md_name d) (md_type d) L b x) /\
  (msg_unmarshal d Debug b = Panic <-> fatal d b) /\
  ((exists e, msg_unmarshal d Debug b = Err e) <-> faulty (md_name d) (md_type d) L b /\ ~ fatal d b).
Proof.
  intros d L b HI Hb. pose proof (PropsV2Hang.C71_message_exact d L Debug b HI Hb) as HF. split; [|split].
  - intros x. exact (message_says_iff d L b x HI Hb).
  - exact HF.
  - split.
    + intros (e & U). split; [exact (refused_faulty d L b e HI Hb U)|]. rewrite <- HF, U. discriminate.
    + intros [A B]. exact (faulty_refused d L b HI Hb A B).
Qed.
Print Assumptions C98_gtpv2_received.

(* All three occur: a Delete Session Request without elements, one with an access point name that is cut, and one whose
   length ends inside the header. *)
Example C98_gtpv2_cases :
  (exists x, message_says "DeleteSessionRequest" 36 ly_deletesessionreq [72; 36; 0; 8; 0; 0; 0; 1; 0; 0; 9; 0] x) /\
  faulty "DeleteSessionRequest" 36 ly_deletesessionreq PropsV2ErrExact.cut_element /\
  fatal md_deletesessionreq [64; 36; 0; 4; 0; 0; 9; 0].
Proof.
  pose proof PropsV2ErrExact.delete_listed as HI. split; [|split].
  - eexists. apply (message_says_iff _ _ _ _ HI); [repeat constructor|vm_compute; reflexivity].
  - apply (refused_faulty md_deletesessionreq _ _ (IEInvalidLength 71) HI); [repeat constructor|vm_compute; reflexivity].
  - apply (PropsV2Hang.C71_message_exact _ _ Debug _ HI); [repeat constructor|vm_compute; reflexivity].
Qed.
