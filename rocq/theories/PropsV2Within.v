(* PropsV2Within.v - C79: whether the contents of a GTPv2-C element come from its own octets. *)
From Verif Require Import Base BaseFacts V2Decoder V2WireSpec V2IeSpec V2DecFacts V2DecMore V2Within V2OwnFacts.
Local Open Scope N_scope.

(* --- specification --------------------------------------------------------------------------------------------------- *)
(* The octets of an element: four of header, and as many as the second and third say. 65531 is the largest length that does
   not overflow when four are added (for more, see C63). *)
Definition declares (own : list N) : N := 256 * nth 1 own 0 + nth 2 own 0.
Definition element_octets (own : list N) : Prop :=
  length own = (4 + N.to_nat (declares own))%nat /\ declares own <= 65531.
Definition type_octet (own : list N) : N := nth 0 own 0.
Definition unknown_type (t : N) : Prop := forall x, has_code (IE_Unknown x) t.
(* The type codes of the kinds of elements that stay within their octets ... *)
Definition reads_within : list N :=
  [1; 2; 51; 71; 74; 75; 76; 77; 78; 79; 84; 85; 93; 109; 116; 118; 119; 125; 136; 151; 163; 180; 181; 184; 187; 191; 193; 195; 197; 208; 209; 214; 215; 216; 219; 254; 255].
(* ... and those that do not. *)
Definition reads_beyond : list N :=
  [3; 56; 72; 73; 80; 81; 82; 83; 86; 87; 88; 89; 90; 91; 92; 94; 95; 96; 97; 99; 100; 103; 104; 105; 106; 107; 108; 110; 111; 112; 113; 114; 115; 117; 120; 121; 123; 124; 126; 127; 128; 129; 131; 132; 133; 134; 135; 137; 138; 139; 140; 141; 142; 143; 144; 145; 146; 147; 148; 149; 150; 152; 153; 154; 155; 156; 157; 158; 159; 160; 162; 164; 165; 166; 167; 168; 169; 170; 171; 172; 173; 174; 175; 176; 177; 178; 179; 182; 183; 185; 186; 188; 189; 190; 192; 194; 196; 198; 199; 200; 201; 202; 203; 204; 205; 206; 207; 210; 211; 212; 213; 217; 218].

(* --- proofs ---------------------------------------------------------------------------------------------------------- *)
Lemma whole own : element_octets own -> whole_element own.
Proof. intros [L D]. assert (X : declared own = declares own) by (unfold declared, declares, be16; lia). unfold whole_element. rewrite X. split; assumption. Qed.
Lemma head own r : own <> [] -> at_ (E:=GTPV2Error) (own ++ r) 0 = Ok (type_octet own).
Proof. destruct own; [contradiction|reflexivity]. Qed.
Lemma kept_lift {A} (c : A -> ie) u : kept u -> kept (fun b => lift c (u b)).
Proof.
  intros K own r1 r2 x y W E1 E2. cbv beta in E1, E2. unfold lift in E1, E2. destruct (u (own ++ r1)) as [a| | |] eqn:U1; try discriminate E1.
  destruct (u (own ++ r2)) as [b| | |] eqn:U2; try discriminate E2. rewrite (K _ _ _ _ _ W U1 U2) in E1. congruence.
Qed.

(* --- theorems -------------------------------------------------------------------------------------------------------- *)
(* For these kinds, and for elements of unknown type, the octets of the element determine what is read: whatever follows in
   the packet, it is the same element if it is accepted. *)
Theorem C79_within_partial : forall m own r1 r2 e1 e2, element_octets own -> In (type_octet own) reads_within \/ unknown_type (type_octet own) ->
  decode_one (decoder m) m (own ++ r1) = Ok e1 -> decode_one (decoder m) m (own ++ r2) = Ok e2 -> e1 = e2.
Proof.
  intros m own r1 r2 e1 e2 O T E1 E2. pose proof (whole own O) as W.
  assert (NE : own <> []) by (intros ->; destruct O as [O _]; discriminate O).
  pose proof (head own r1 NE) as H1. pose proof (head own r2 NE) as H2. destruct T as [T|T].
  - unfold reads_within in T. cbn [In] in T.
    repeat (destruct T as [T|T]; [rewrite <- T in H1, H2|]); [..|destruct T].
    + rewrite disp_1 in E1 by exact H1. rewrite disp_1 in E2 by exact H2. exact (kept_lift _ _ (Imsi_kept m) _ _ _ _ _ W E1 E2).
    + rewrite disp_2 in E1 by exact H1. rewrite disp_2 in E2 by exact H2. exact (kept_lift _ _ (Cause_kept m) _ _ _ _ _ W E1 E2).
    + rewrite disp_51 in E1 by exact H1. rewrite disp_51 in E2 by exact H2. exact (kept_lift _ _ (StnSr_kept m) _ _ _ _ _ W E1 E2).
    + rewrite disp_71 in E1 by exact H1. rewrite disp_71 in E2 by exact H2. exact (kept_lift _ _ (Apn_kept m) _ _ _ _ _ W E1 E2).
    + rewrite disp_74 in E1 by exact H1. rewrite disp_74 in E2 by exact H2. exact (kept_lift _ _ (IpAddress_kept m) _ _ _ _ _ W E1 E2).
    + rewrite disp_75 in E1 by exact H1. rewrite disp_75 in E2 by exact H2. exact (kept_lift _ _ (Mei_kept m) _ _ _ _ _ W E1 E2).
    + rewrite disp_76 in E1 by exact H1. rewrite disp_76 in E2 by exact H2. exact (kept_lift _ _ (Msisdn_kept m) _ _ _ _ _ W E1 E2).
    + rewrite disp_77 in E1 by exact H1. rewrite disp_77 in E2 by exact H2. exact (kept_lift _ _ (Indication_kept m) _ _ _ _ _ W E1 E2).
    + rewrite disp_78 in E1 by exact H1. rewrite disp_78 in E2 by exact H2. exact (kept_lift _ _ (Pco_kept m) _ _ _ _ _ W E1 E2).
    + rewrite disp_79 in E1 by exact H1. rewrite disp_79 in E2 by exact H2. exact (kept_lift _ _ (PdnAddressAllocation_kept m) _ _ _ _ _ W E1 E2).
    + rewrite disp_84 in E1 by exact H1. rewrite disp_84 in E2 by exact H2. exact (kept_lift _ _ (BearerTft_kept m) _ _ _ _ _ W E1 E2).
    + rewrite disp_85 in E1 by exact H1. rewrite disp_85 in E2 by exact H2. exact (kept_lift _ _ (TrafficAggregateDescription_kept m) _ _ _ _ _ W E1 E2).
    + rewrite disp_93 in E1 by exact H1. rewrite disp_93 in E2 by exact H2. exact (kept_lift _ _ (BearerContext_kept _ m) _ _ _ _ _ W E1 E2).
    + rewrite disp_109 in E1 by exact H1. rewrite disp_109 in E2 by exact H2. exact (kept_lift _ _ (PdnConnections_kept _ m) _ _ _ _ _ W E1 E2).
    + rewrite disp_116 in E1 by exact H1. rewrite disp_116 in E2 by exact H2. exact (kept_lift _ _ (CompleteRequestMessage_kept m) _ _ _ _ _ W E1 E2).
    + rewrite disp_118 in E1 by exact H1. rewrite disp_118 in E2 by exact H2. exact (kept_lift _ _ (Fcontainer_kept m) _ _ _ _ _ W E1 E2).
    + rewrite disp_119 in E1 by exact H1. rewrite disp_119 in E2 by exact H2. exact (kept_lift _ _ (Fcause_kept m) _ _ _ _ _ W E1 E2).
    + rewrite disp_125 in E1 by exact H1. rewrite disp_125 in E2 by exact H2. exact (kept_lift _ _ (SourceRncPdcpContextInfo_kept m) _ _ _ _ _ W E1 E2).
    + rewrite disp_136 in E1 by exact H1. rewrite disp_136 in E2 by exact H2. exact (kept_lift _ _ (Fqdn_kept m) _ _ _ _ _ W E1 E2).
    + rewrite disp_151 in E1 by exact H1. rewrite disp_151 in E2 by exact H2. exact (kept_lift _ _ (Ldn_kept m) _ _ _ _ _ W E1 E2).
    + rewrite disp_163 in E1 by exact H1. rewrite disp_163 in E2 by exact H2. exact (kept_lift _ _ (Apco_kept m) _ _ _ _ _ W E1 E2).
    + rewrite disp_180 in E1 by exact H1. rewrite disp_180 in E2 by exact H2. exact (kept_lift _ _ (OverloadControlInfo_kept _ m) _ _ _ _ _ W E1 E2).
    + rewrite disp_181 in E1 by exact H1. rewrite disp_181 in E2 by exact H2. exact (kept_lift _ _ (LoadControl_kept _ m) _ _ _ _ _ W E1 E2).
    + rewrite disp_184 in E1 by exact H1. rewrite disp_184 in E2 by exact H2. exact (kept_lift _ _ (ApnRelativeCapacity_kept m) _ _ _ _ _ W E1 E2).
    + rewrite disp_187 in E1 by exact H1. rewrite disp_187 in E2 by exact H2. exact (kept_lift _ _ (IntegerNumber_kept m) _ _ _ _ _ W E1 E2).
    + rewrite disp_191 in E1 by exact H1. rewrite disp_191 in E2 by exact H2. exact (kept_lift _ _ (RemoteUeContext_kept _ m) _ _ _ _ _ W E1 E2).
    + rewrite disp_193 in E1 by exact H1. rewrite disp_193 in E2 by exact H2. exact (kept_lift _ _ (RemoteUeIpInformation_kept m) _ _ _ _ _ W E1 E2).
    + rewrite disp_195 in E1 by exact H1. rewrite disp_195 in E2 by exact H2. exact (kept_lift _ _ (ScefPdnConnections_kept _ m) _ _ _ _ _ W E1 E2).
    + rewrite disp_197 in E1 by exact H1. rewrite disp_197 in E2 by exact H2. exact (kept_lift _ _ (Epco_kept m) _ _ _ _ _ W E1 E2).
    + rewrite disp_208 in E1 by exact H1. rewrite disp_208 in E2 by exact H2. exact (kept_lift _ _ (V2xInformation_kept _ m) _ _ _ _ _ W E1 E2).
    + rewrite disp_209 in E1 by exact H1. rewrite disp_209 in E2 by exact H2. exact (kept_lift _ _ (PC5QosParameters_kept _ m) _ _ _ _ _ W E1 E2).
    + rewrite disp_214 in E1 by exact H1. rewrite disp_214 in E2 by exact H2. exact (kept_lift _ _ (PgwChangeInfo_kept _ m) _ _ _ _ _ W E1 E2).
    + rewrite disp_215 in E1 by exact H1. rewrite disp_215 in E2 by exact H2. exact (kept_lift _ _ (PgwFqdn_kept m) _ _ _ _ _ W E1 E2).
    + rewrite disp_216 in E1 by exact H1. rewrite disp_216 in E2 by exact H2. exact (kept_lift _ _ (GroupId_kept m) _ _ _ _ _ W E1 E2).
    + rewrite disp_219 in E1 by exact H1. rewrite disp_219 in E2 by exact H2. exact (kept_lift _ _ (AlternativeImsi_kept m) _ _ _ _ _ W E1 E2).
    + rewrite disp_254 in E1 by exact H1. rewrite disp_254 in E2 by exact H2. exact (kept_lift _ _ (SpecialIEWithTypeExt_kept m) _ _ _ _ _ W E1 E2).
    + rewrite disp_255 in E1 by exact H1. rewrite disp_255 in E2 by exact H2. exact (kept_lift _ _ (PrivateExtension_kept m) _ _ _ _ _ W E1 E2).
  - assert (B1 : own ++ r1 <> []) by (destruct own; [contradiction|discriminate]). assert (B2 : own ++ r2 <> []) by (destruct own; [contradiction|discriminate]).
    assert (X1 : nth 0 (own ++ r1) 0 = type_octet own) by (destruct own; [contradiction|reflexivity]).
    assert (X2 : nth 0 (own ++ r2) 0 = type_octet own) by (destruct own; [contradiction|reflexivity]).
    assert (N169 : type_octet own <> 169) by (intros Q; apply (T (mkIe 0 0 0 [])); rewrite Q; cbn; tauto).
    rewrite (dispatch_own m (IE_Unknown (mkIe 0 0 0 []))) in E1; [|exact B1|rewrite X1; exact N169|rewrite X1; apply T].
    rewrite (dispatch_own m (IE_Unknown (mkIe 0 0 0 []))) in E2; [|exact B2|rewrite X2; exact N169|rewrite X2; apply T].
    exact (kept_lift _ _ (Unknown_kept m) _ _ _ _ _ W E1 E2).
Qed.
(* In each of the other kinds there are octets of an element, and two ways in which a packet can go on, such that both are
   accepted and the contents of the element are different: what follows the element is taken for its contents. *)
Definition beyond_cases : list (list N * list N * list N) := [
  ([3; 0; 0; 0], [0], [1]);
  ([56; 0; 0; 0], [0], [1]);
  ([72; 0; 0; 0], repeat 0 8, repeat 1 8);
  ([73; 0; 0; 0], [0], [1]);
  ([80; 0; 0; 0], repeat 0 22, repeat 1 22);
  ([81; 0; 0; 0], repeat 0 21, repeat 1 21);
  ([82; 0; 0; 0], [0], [1]);
  ([83; 0; 0; 0], [0; 0; 0], [1; 1; 1]);
  ([86; 0; 1; 0; 1], repeat 1 7, repeat 0 7);
  ([87; 0; 1; 0; 255], repeat 255 24, repeat 0 24);
  ([88; 0; 0; 0], [0; 0; 0; 0], [1; 1; 1; 1]);
  ([89; 0; 0; 0], repeat 0 5, repeat 1 5);
  ([90; 0; 1; 0; 16], repeat 16 37, repeat 0 37);
  ([91; 0; 2; 0; 16; 16], repeat 16 20, repeat 0 20);
  ([92; 0; 0; 0], [0], [1]);
  ([94; 0; 0; 0], [0; 0; 0; 0], [1; 1; 1; 1]);
  ([95; 0; 0; 0], [0; 0], [1; 1]);
  ([96; 0; 0; 0], repeat 0 34, repeat 1 34);
  ([97; 0; 0; 0], [0], [1]);
  ([99; 0; 0; 0], [0], [1]);
  ([100; 0; 0; 0], [0], [1]);
  ([103; 0; 0; 0], repeat 0 28, repeat 1 28);
  ([104; 0; 0; 0], [0; 16] ++ repeat 0 60, [0; 16; 0; 1] ++ repeat 0 58);
  ([105; 0; 0; 0], repeat 0 29, repeat 1 29);
  ([106; 0; 0; 0], [0; 16] ++ repeat 0 60, [0; 16; 0; 1] ++ repeat 0 58);
  ([107; 0; 0; 0], repeat 1 150, repeat 0 70);
  ([108; 0; 0; 0], repeat 0 54, repeat 1 54);
  ([110; 0; 0; 0], repeat 0 9, repeat 1 9);
  ([111; 0; 0; 0], [0; 0; 0; 0], [1; 1; 1; 1]);
  ([112; 0; 0; 0], [0; 0; 0; 0], [1; 1; 1; 1]);
  ([113; 0; 0; 0], [0], [1]);
  ([114; 0; 0; 0], [0; 0], [1; 1]);
  ([115; 0; 0; 0], repeat 0 6, repeat 1 6);
  ([117; 0; 0; 0], repeat 0 10, repeat 1 10);
  ([120; 0; 0; 0], [0; 0; 0], [1; 1; 1]);
  ([121; 0; 0; 0], repeat 0 9, repeat 1 9);
  ([123; 0; 0; 0], repeat 0 5, repeat 1 5);
  ([124; 0; 0; 0], repeat 0 9, repeat 1 9);
  ([126; 0; 0; 0], [0; 0], [1; 1]);
  ([127; 0; 0; 0], [0], [1]);
  ([128; 0; 0; 0], [0], [1]);
  ([129; 0; 0; 0], repeat 0 17, repeat 1 17);
  ([131; 0; 0; 0], [0], [1]);
  ([132; 0; 1; 0; 0], [0; 0; 0; 0], [1; 1; 1; 1]);
  ([133; 0; 0; 0], [0], [1]);
  ([134; 0; 0; 0], [0], [1]);
  ([135; 0; 0; 0], [0], [1]);
  ([137; 0; 0; 0], [0], [85]);
  ([138; 0; 0; 0], [0; 0; 0], [1; 1; 1]);
  ([139; 0; 1; 0; 0], [0; 0], [1; 1]);
  ([140; 0; 0; 0], [0], [1]);
  ([141; 0; 0; 0], [0; 0], [1; 1]);
  ([142; 0; 4; 0; 0; 0; 0; 1], [4; 1; 1; 1; 1; 4; 1; 1; 1; 1; 0], [4; 1; 1; 1; 1; 4] ++ repeat 1 5);
  ([143; 0; 0; 0], [0], [1]);
  ([144; 0; 0; 0], [0; 0], [1; 1]);
  ([145; 0; 0; 0], repeat 0 8, repeat 1 8);
  ([146; 0; 0; 0], [0], [1]);
  ([147; 0; 0; 0], [0; 0; 0; 0], [1; 1; 1; 1]);
  ([148; 0; 0; 0], [0], [1]);
  ([149; 0; 0; 0], [0], [1]);
  ([150; 0; 0; 0], [0], [1]);
  ([152; 0; 0; 0], [0], [1]);
  ([153; 0; 0; 0], [0], [1]);
  ([154; 0; 0; 0], [0; 0], [1; 1]);
  ([155; 0; 0; 0], [0], [1]);
  ([156; 0; 0; 0], [0], [1]);
  ([157; 0; 0; 0], [0], [1]);
  ([158; 0; 0; 0], repeat 0 6, repeat 1 6);
  ([159; 0; 0; 0], repeat 0 6, repeat 1 6);
  ([160; 0; 0; 0], [0], [1]);
  ([162; 0; 0; 0], repeat 0 13, repeat 1 13);
  ([164; 0; 0; 0], repeat 0 8, repeat 1 8);
  ([165; 0; 0; 0], [0], [1]);
  ([166; 0; 0; 0], repeat 0 5, repeat 1 5);
  ([167; 0; 0; 0], [0], [1]);
  ([168; 0; 0; 0], [0], [1]);
  ([169; 0; 0; 0], [0], [1]);
  ([170; 0; 0; 0], [0; 0; 0; 0], [1; 1; 1; 1]);
  ([171; 0; 0; 0], [0], [1]);
  ([172; 0; 1; 0; 33], [33], [0]);
  ([173; 0; 0; 0], [0], [1]);
  ([174; 0; 0; 0], [0], [1]);
  ([175; 0; 1; 0; 33], repeat 33 33, repeat 0 33);
  ([176; 0; 1; 0; 0], [0; 0], [1; 1]);
  ([177; 0; 1; 0; 0], repeat 0 56, repeat 1 56);
  ([178; 0; 0; 0], repeat 0 8, repeat 1 8);
  ([179; 0; 0; 0], [0; 0; 0; 0], [1; 1; 1; 1]);
  ([182; 0; 0; 0], [0], [1]);
  ([183; 0; 0; 0], [0; 0; 0; 0], [1; 1; 1; 1]);
  ([185; 0; 0; 0], [0], [1]);
  ([186; 0; 0; 0], [0; 0; 0], [1; 1; 1]);
  ([188; 0; 0; 0], repeat 0 6, repeat 1 6);
  ([189; 0; 0; 0], repeat 0 8, repeat 1 8);
  ([190; 0; 0; 0], [0; 1] ++ repeat 3 7, repeat 0 9);
  ([192; 0; 0; 0], repeat 0 5, repeat 1 5);
  ([194; 0; 0; 0], [0], [1]);
  ([196; 0; 0; 0], [0; 0; 0; 0], [1; 1; 1; 1]);
  ([198; 0; 0; 0], [0; 0; 0; 0], [1; 1; 1; 1]);
  ([199; 0; 0; 0], repeat 0 5, repeat 1 5);
  ([200; 0; 0; 0], [0; 0], [1; 1]);
  ([201; 0; 0; 0], repeat 0 27, repeat 1 27);
  ([202; 0; 0; 0], [0], [1]);
  ([203; 0; 0; 0], [0; 0; 0], [1; 1; 1]);
  ([204; 0; 0; 0], repeat 0 20, repeat 1 20);
  ([205; 0; 23; 0] ++ repeat 4 23, [4; 4; 4; 4], [0; 0; 0; 0]);
  ([206; 0; 1; 0; 0], repeat 0 6, repeat 1 6);
  ([207; 0; 0; 0], [0; 0; 0; 0], [1; 1; 1; 1]);
  ([210; 0; 0; 0], [0; 0], [1; 1]);
  ([211; 0; 0; 0], [0; 0; 0; 0], [1; 1; 1; 1]);
  ([212; 0; 1; 0; 0], repeat 0 9, repeat 1 9);
  ([213; 0; 1; 0; 1], [1; 1; 1; 1], [0; 0; 0; 0]);
  ([217; 0; 0; 0], repeat 0 8, repeat 1 8);
  ([218; 0; 0; 0], [0], [1])].
Definition octets_same (a b : list N) : bool := if list_eq_dec N.eq_dec a b then true else false.
Definition differs (m : mode) (c : list N * list N * list N) : bool :=
  match c with (own, r1, r2) =>
    match decode_one (decoder m) m (own ++ r1), decode_one (decoder m) m (own ++ r2) with
    | Ok a, Ok b => negb (octets_same (ie_marshal a) (ie_marshal b))
    | _, _ => false
    end end.
Definition whole_case (t : N) (c : list N * list N * list N) : bool :=
  match c with (own, _, _) => (type_octet own =? t) && (length own =? 4 + N.to_nat (declares own))%nat && (declares own <=? 65531) end.
Lemma cases_checked : forallb (fun p => whole_case (fst p) (snd p) && differs Debug (snd p) && differs Release (snd p)) (combine reads_beyond beyond_cases) = true.
Proof. vm_compute. reflexivity. Qed.
Lemma cases_complete : map fst (combine reads_beyond beyond_cases) = reads_beyond.
Proof. reflexivity. Qed.
Theorem C79_beyond_refuted : forall t, In t reads_beyond -> exists own r1 r2, element_octets own /\ type_octet own = t /\
  forall m, exists e1 e2, decode_one (decoder m) m (own ++ r1) = Ok e1 /\ decode_one (decoder m) m (own ++ r2) = Ok e2 /\ e1 <> e2.
Proof.
  intros t T. rewrite <- cases_complete in T. apply in_map_iff in T. destruct T as ((t' & (own & r1) & r2) & X & I). cbn [fst] in X. subst t'.
  pose proof (proj1 (forallb_forall _ _) cases_checked _ I) as K. clear I. cbn [fst snd] in K. apply andb_prop in K. destruct K as [K KR]. apply andb_prop in K. destruct K as [K KD].
  unfold whole_case in K. apply andb_prop in K. destruct K as [K K3]. apply andb_prop in K. destruct K as [K1 K2].
  exists own, r1, r2. split; [split; [apply Nat.eqb_eq, K2|apply N.leb_le, K3]|]. split; [apply N.eqb_eq, K1|].
  intros m. assert (K : differs m (own, r1, r2) = true) by (destruct m; assumption). clear - K. unfold differs in K.
  destruct (decode_one (decoder m) m (own ++ r1)) as [a| | |]; try discriminate K. destruct (decode_one (decoder m) m (own ++ r2)) as [b| | |]; try discriminate K.
  exists a, b. split; [reflexivity|split; [reflexivity|]]. intros ->. unfold octets_same in K. destruct (list_eq_dec N.eq_dec (ie_marshal b) (ie_marshal b)); [discriminate K|contradiction].
Qed.
(* These are all types. *)
Theorem C79_every_type : forall t, In t reads_within \/ In t reads_beyond \/ unknown_type t.
Proof.
  intros t. destruct (in_dec N.eq_dec t reads_within) as [I|I]; [left; exact I|]. destruct (in_dec N.eq_dec t reads_beyond) as [J|J]; [right; left; exact J|].
  right; right. intros x. cbn [has_code]. intros K. assert (Z : forallb (fun c => existsb (N.eqb c) (reads_within ++ reads_beyond)) [1; 2; 3; 51; 56; 71; 72; 73; 74; 75; 76; 77; 78; 79; 80; 81; 82; 83; 84; 85; 86; 87; 88; 89; 90; 91; 92; 93; 94; 95; 96; 97; 99; 100; 103; 104; 105; 106; 107; 108; 109; 110; 111; 112; 113; 114; 115; 116; 117; 118; 119; 120; 121; 123; 124; 125; 126; 127; 128; 129; 131; 132; 133; 134; 135; 136; 137; 138; 139; 140; 141; 142; 143; 144; 145; 146; 147; 148; 149; 150; 151; 152; 153; 154; 155; 156; 157; 158; 159; 160; 162; 163; 164; 165; 166; 167; 168; 169; 170; 171; 172; 173; 174; 175; 176; 177; 178; 179; 180; 181; 182; 183; 184; 185; 186; 187; 188; 189; 190; 191; 192; 193; 194; 195; 196; 197; 198; 199; 200; 201; 202; 203; 204; 205; 206; 207; 208; 209; 210; 211; 212; 213; 214; 215; 216; 217; 218; 219; 254; 255] = true) by (vm_compute; reflexivity).
  pose proof (proj1 (forallb_forall _ _) Z t K) as Y. apply existsb_exists in Y. destruct Y as (c & Y & Q). apply N.eqb_eq in Q. subst c.
  apply in_app_or in Y. destruct Y; contradiction.
Qed.

(* --- witnesses ------------------------------------------------------------------------------------------------------- *)
(* An IMSI, followed by a Recovery and by nothing. *)
Example C79_witness : element_octets [1; 0; 2; 0; 33; 67] /\ In (type_octet [1; 0; 2; 0; 33; 67]) reads_within /\
  exists e, decode_one (decoder Debug) Debug ([1; 0; 2; 0; 33; 67] ++ [3; 0; 1; 0; 9]) = Ok e /\ decode_one (decoder Debug) Debug ([1; 0; 2; 0; 33; 67] ++ []) = Ok e.
Proof. split; [split; [reflexivity|discriminate]|]. split; [left; reflexivity|]. eexists. split; reflexivity. Qed.
(* An EPS Bearer ID that declares no contents: its value is the type code of the element that follows. *)
Example C79_witness_ebi : decode_one (decoder Debug) Debug ([73; 0; 0; 0] ++ [3; 0; 1; 0; 9]) = Ok (IE_Ebi (mkIe 73 0 0 3)) /\
  decode_one (decoder Debug) Debug ([73; 0; 0; 0] ++ [82; 0; 1; 0; 6]) = Ok (IE_Ebi (mkIe 73 0 0 2)) /\ In 73 reads_beyond.
Proof. split; [reflexivity|split; [reflexivity|]]. vm_compute. tauto. Qed.
Print Assumptions C79_within_partial.
Print Assumptions C79_beyond_refuted.
Print Assumptions C79_every_type.
