(* V2Common.v - the value types of src/gtpv2/messages/ies/commons.rs. They implement the IEs
   trait without a type/length/instance header: [X_enc] is the octets marshal appends,
   [X_dec b] is unmarshal. *)
From Verif Require Import Base.
From Verif Require Export V2Base V2Enums.
Local Open Scope N_scope.

(* A PLMN identity: the fields mcc, mnc, mnc_is_three_digits that many structs share *)
Record plmn := mkPlmn { p_mcc : N; p_mnc : N; p_three : bool }.
Definition plmn_enc (p : plmn) : list N := mcc_mnc_encode (p_mcc p) (p_mnc p) (p_three p).
(* mcc_mnc_decode(&buffer[k..=k+2]) *)
Definition plmn_at (b : list N) (k : nat) : res plmn :=
  let? s := slice b k (k + 3) in
  let? (c, n, t) := mcc_mnc_decode s in Ok (mkPlmn c n t).

(* a length octet at [c] followed by that many octets; [e] if they are not there. The result
   is the octets and the cursor after them. *)
Definition lv_at (b : list N) (c : nat) (e : GTPV2Error) : res (list N * nat) :=
  let? l := at_ b c in
  let n := N.to_nat l in
  if (c + 1 + n <=? length b)%nat then
    let? s := slice b (c + 1) (c + 1 + n) in Ok (s, (c + 1 + n)%nat)
  else Err e.
(* push(x.len() as u8); extend_from_slice(&x) *)
Definition lv (x : list N) : list N := nlen x mod 256 :: x.

(* String::from_utf8_lossy: invalid sequences become U+FFFD, one per maximal invalid prefix *)
Definition cont (c : N) : bool := (128 <=? c) && (c <=? 191).
Definition second_ok (c d : N) : bool :=
  if c =? 224 then (160 <=? d) && (d <=? 191)
  else if c =? 237 then (128 <=? d) && (d <=? 159)
  else if c =? 240 then (144 <=? d) && (d <=? 191)
  else if c =? 244 then (128 <=? d) && (d <=? 143)
  else cont d.
Fixpoint utf8_lossy (b : list N) : list N :=
  match b with
  | [] => []
  | c :: r =>
      if c <? 128 then c :: utf8_lossy r
      else if (194 <=? c) && (c <=? 223) then
        match r with
        | d :: r1 => if cont d then ((c - 192) * 64 + (d - 128)) :: utf8_lossy r1 else 65533 :: utf8_lossy r
        | [] => [65533]
        end
      else if (224 <=? c) && (c <=? 239) then
        match r with
        | d :: r1 =>
            if second_ok c d then
              match r1 with
              | e :: r2 => if cont e then ((c - 224) * 4096 + (d - 128) * 64 + (e - 128)) :: utf8_lossy r2
                           else 65533 :: utf8_lossy r1
              | [] => [65533]
              end
            else 65533 :: utf8_lossy r
        | [] => [65533]
        end
      else if (240 <=? c) && (c <=? 244) then
        match r with
        | d :: r1 =>
            if second_ok c d then
              match r1 with
              | e :: r2 =>
                  if cont e then
                    match r2 with
                    | f :: r3 => if cont f then
                        ((c - 240) * 262144 + (d - 128) * 4096 + (e - 128) * 64 + (f - 128)) :: utf8_lossy r3
                        else 65533 :: utf8_lossy r2
                    | [] => [65533]
                    end
                  else 65533 :: utf8_lossy r1
              | [] => [65533]
              end
            else 65533 :: utf8_lossy r
        | [] => [65533]
        end
      else 65533 :: utf8_lossy r
  end.

(* commons.rs 21-27, 30-38, 40-53, 57-59 *)
Record cgi := mkCgi { cgi_plmn : plmn; cgi_lac : N; cgi_ci : N }.
Definition Cgi_enc (v : cgi) : list N := plmn_enc (cgi_plmn v) ++ enc_be 2 (cgi_lac v) ++ enc_be 2 (cgi_ci v).
Definition Cgi_dec (b : list N) : res cgi :=
  need b 7 (IEIncorrect 0) (
  let? p := plmn_at b 0 in let? lac := be_at b 3 2 in let? ci := be_at b 5 2 in Ok (mkCgi p lac ci)).
(* commons.rs 69-75, 78-86, 88-101 *)
Record sai := mkSai { sai_plmn : plmn; sai_lac : N; sai_sac : N }.
Definition Sai_enc (v : sai) : list N := plmn_enc (sai_plmn v) ++ enc_be 2 (sai_lac v) ++ enc_be 2 (sai_sac v).
Definition Sai_dec (b : list N) : res sai :=
  need b 7 (IEIncorrect 0) (
  let? p := plmn_at b 0 in let? lac := be_at b 3 2 in let? sac := be_at b 5 2 in Ok (mkSai p lac sac)).
(* commons.rs 117-123, 126-135, 137-150: the encoder writes seven octets, the decoder reads
   six, len() (154-156) is 6 *)
Record rai := mkRai { rai_plmn : plmn; rai_lac : N; rai_rac : N }.
Definition Rai_enc (v : rai) : list N := plmn_enc (rai_plmn v) ++ enc_be 2 (rai_lac v) ++ [rai_rac v; 255].
Definition Rai_dec (b : list N) : res rai :=
  need b 6 (IEIncorrect 0) (
  let? p := plmn_at b 0 in let? lac := be_at b 3 2 in let? rac := at_ b 5 in Ok (mkRai p lac rac)).
(* commons.rs 166-171, 174-181, 183-195 *)
Record tai := mkTai { tai_plmn : plmn; tai_tac : N }.
Definition Tai_enc (v : tai) : list N := plmn_enc (tai_plmn v) ++ enc_be 2 (tai_tac v).
Definition Tai_dec (b : list N) : res tai :=
  need b 5 (IEIncorrect 0) (let? p := plmn_at b 0 in let? tac := be_at b 3 2 in Ok (mkTai p tac)).
(* commons.rs 211-216, 219-226, 228-240 *)
Record ecgi := mkEcgi { ecgi_plmn : plmn; ecgi_eci : N }.
Definition Ecgi_enc (v : ecgi) : list N := plmn_enc (ecgi_plmn v) ++ enc_be 4 (ecgi_eci v).
Definition Ecgi_dec (b : list N) : res ecgi :=
  need b 7 (IEIncorrect 0) (let? p := plmn_at b 0 in let? eci := be_at b 3 4 in Ok (mkEcgi p eci)).
(* commons.rs 256-261, 264-271, 273-285 *)
Record lai := mkLai { lai_plmn : plmn; lai_lac : N }.
Definition Lai_enc (v : lai) : list N := plmn_enc (lai_plmn v) ++ enc_be 2 (lai_lac v).
Definition Lai_dec (b : list N) : res lai :=
  need b 5 (IEIncorrect 0) (let? p := plmn_at b 0 in let? lac := be_at b 3 2 in Ok (mkLai p lac)).
(* commons.rs 303-308, 311-318, 320-332 *)
Record macro_enb := mkMacroEnb { me_plmn : plmn; me_id : N }.
Definition MacroEnbId_enc (v : macro_enb) : list N := plmn_enc (me_plmn v) ++ enc_be 3 (me_id v).
Definition MacroEnbId_dec (b : list N) : res macro_enb :=
  need b 6 (IEIncorrect 0) (let? p := plmn_at b 0 in let? i := be_at b 3 3 in Ok (mkMacroEnb p i)).
(* commons.rs 350-356, 359-373, 375-398 *)
Record ext_macro_enb := mkExtMacroEnb { xe_plmn : plmn; xe_smenb : bool; xe_id : N }.
Definition ExtMacroEnbId_enc (v : ext_macro_enb) : list N :=
  let i := xe_id v in
  plmn_enc (xe_plmn v) ++
  [ (if xe_smenb v then N.land (N.lor ((i / 65536) mod 256) 128) 131 else (i / 65536) mod 256);
    (i / 256) mod 256; i mod 256 ].
Definition ExtMacroEnbId_dec (b : list N) : res ext_macro_enb :=
  need b 6 (IEIncorrect 0) (
  let? p := plmn_at b 0 in
  let? x := at_ b 3 in let? y := at_ b 4 in let? z := at_ b 5 in
  let top := N.shiftr x 7 in
  if top =? 0 then Ok (mkExtMacroEnb p false (be24 x y z))
  else if top =? 1 then Ok (mkExtMacroEnb p true (be24 (N.land x 3) y z))
  else Ok (mkExtMacroEnb p false 0)).

(* commons.rs 418-422, 425-429, 431-441; the arrays are lists of 16, 4 and 8 octets *)
Record auth_triplet := mkTriplet { at_rand : list N; at_sres : list N; at_kc : list N }.
Definition AuthTriplet_enc (v : auth_triplet) : list N := at_rand v ++ at_sres v ++ at_kc v.
Definition AuthTriplet_dec (b : list N) : res auth_triplet :=
  need b 28 (IEIncorrect 0) (
  let? r := slice b 0 16 in let? s := slice b 16 20 in let? k := slice b 20 28 in Ok (mkTriplet r s k)).
(* commons.rs 495-501, 504-512 *)
Record auth_quintuplet := mkQuint {
  aq_rand : list N; aq_xres : list N; aq_ck : list N; aq_ik : list N; aq_autn : list N }.
Definition AuthQuintuplet_enc (v : auth_quintuplet) : list N :=
  aq_rand v ++ lv (aq_xres v) ++ aq_ck v ++ aq_ik v ++ lv (aq_autn v).
(* commons.rs 514-548: buffer[16] is read after checking for 16 octets, and the octet after
   ck and ik without a check *)
Definition AuthQuintuplet_dec (b : list N) : res auth_quintuplet :=
  need b 16 (IEIncorrect 0) (
  let? rand := slice b 0 16 in
  let? (xres, c) := lv_at b 16 (IEIncorrect 0) in
  need b (c + 32) (IEIncorrect 0) (
  let? ck := slice b c (c + 16) in
  let? ik := slice b (c + 16) (c + 32) in
  let? (autn, _) := lv_at b (c + 32) (IEIncorrect 0) in
  Ok (mkQuint rand xres ck ik autn))).
(* commons.rs 558-560 *)
Definition AuthQuintuplet_size (v : auth_quintuplet) : nat := 50 + length (aq_xres v) + length (aq_autn v).
(* commons.rs 628-633, 636-643 *)
Record auth_quadruplet := mkQuad { ad_rand : list N; ad_xres : list N; ad_autn : list N; ad_kasme : list N }.
Definition AuthQuadruplet_enc (v : auth_quadruplet) : list N :=
  ad_rand v ++ lv (ad_xres v) ++ lv (ad_autn v) ++ ad_kasme v.
(* commons.rs 645-678 *)
Definition AuthQuadruplet_dec (b : list N) : res auth_quadruplet :=
  need b 17 (IEIncorrect 0) (
  let? rand := slice b 0 16 in
  let? (xres, c) := lv_at b 16 (IEIncorrect 0) in
  let? (autn, c) := lv_at b c (IEIncorrect 0) in
  need b (c + 32) (IEIncorrect 0) (
  let? kasme := slice b c (c + 32) in Ok (mkQuad rand xres autn kasme))).
(* commons.rs 687-689 *)
Definition AuthQuadruplet_size (v : auth_quadruplet) : nat := 50 + length (ad_xres v) + length (ad_autn v).

(* commons.rs 750-756, 759-769 *)
Record apn_rate_mm := mkApnRateMm {
  rm_apn : list N; rm_ul : N; rm_exc : N; rm_dl : N; rm_validity : list N }.
Definition ApnRateControlStatusMM_enc (v : apn_rate_mm) : list N :=
  let body := enc_be 2 (nlen (utf8 (rm_apn v))) ++ utf8 (rm_apn v) ++
              enc_be 4 (rm_ul v) ++ enc_be 4 (rm_exc v) ++ enc_be 4 (rm_dl v) ++ rm_validity v in
  enc_be 2 (nlen body) ++ body.
(* commons.rs 771-821 *)
Definition ApnRateControlStatusMM_dec (b : list N) : res apn_rate_mm :=
  need b 2 (IEIncorrect 0) (
  let? len := be_at b 0 2 in
  need b (N.to_nat len + 2) (IEIncorrect 0) (
  let? al := be_at b 2 2 in
  let n := N.to_nat al in
  need b (n + 4) (IEIncorrect 0) (
  let? apn := slice b 4 (4 + n) in
  let c := (4 + n)%nat in
  need b (c + 20) (IEIncorrect 0) (
  let? ul := be_at b c 4 in let? exc := be_at b (c + 4) 4 in let? dl := be_at b (c + 8) 4 in
  let? va := slice b (c + 12) (c + 20) in
  Ok (mkApnRateMm (utf8_lossy apn) ul exc dl va))))).
(* commons.rs 831-833 *)
Definition ApnRateControlStatusMM_size (v : apn_rate_mm) : nat := 24 + length (utf8 (rm_apn v)).

(* commons.rs 1081-1090, 1092-1105, 1107-1120 *)
Record access_restriction := mkAccessRestriction {
  ax_una : bool; ax_gena : bool; ax_gana : bool; ax_ina : bool;
  ax_ena : bool; ax_hnna : bool; ax_nbna : bool; ax_ecna : bool }.
Definition AccessRestrictionMM_to (v : access_restriction) : N :=
  flag (ax_una v) 1 + flag (ax_gena v) 2 + flag (ax_gana v) 4 + flag (ax_ina v) 8 +
  flag (ax_ena v) 16 + flag (ax_hnna v) 32 + flag (ax_nbna v) 64 + flag (ax_ecna v) 128.
Definition AccessRestrictionMM_of (x : N) : access_restriction :=
  mkAccessRestriction (bit x 1) (bit x 2) (bit x 4) (bit x 8) (bit x 16) (bit x 32) (bit x 64) (bit x 128).
(* commons.rs 1139-1145, 1147-1157, 1159-1169 *)
Record ext_access_restriction := mkExtAccessRestriction {
  ex_nruna : bool; ex_nrusrna : bool; ex_nrna : bool; ex_ussrna : bool; ex_nrsrna : bool }.
Definition ExtendedAccessRestrictionMM_to (v : ext_access_restriction) : N :=
  flag (ex_nrsrna v) 1 + flag (ex_ussrna v) 2 + flag (ex_nrna v) 4 + flag (ex_nrusrna v) 8 + flag (ex_nruna v) 16.
Definition ExtendedAccessRestrictionMM_of (x : N) : ext_access_restriction :=
  mkExtAccessRestriction (bit x 16) (bit x 8) (bit x 4) (bit x 2) (bit x 1).

(* commons.rs 1172-1175, 1178-1181, 1183-1193 *)
Record ambr_mm := mkAmbrMm { amm_ul : N; amm_dl : N }.
Definition AmbrMM_enc (v : ambr_mm) : list N := enc_be 4 (amm_ul v) ++ enc_be 4 (amm_dl v).
Definition AmbrMM_dec (b : list N) : res ambr_mm :=
  need b 8 (IEIncorrect 0) (let? u := be_at b 0 4 in let? d := be_at b 4 4 in Ok (mkAmbrMm u d)).

(* commons.rs 1211-1216, 1219-1236 *)
Record old_eps_ctx := mkOldEps {
  oe_ksi : N; oe_ncc : option N; oe_kasme : list N; oe_next_hop : option (list N) }.
Definition OldEpsSecurityContext_enc (v : old_eps_ctx) : list N :=
  let x := if is_some (oe_next_hop v) then 128 else 0 in
  let x := N.lor x (shl8 (N.land (oe_ksi v) 7) 3) in
  let x := match oe_ncc v with Some ncc => N.lor x (N.land ncc 7) | None => x end in
  x :: oe_kasme v ++ match oe_next_hop v with Some n => n | None => [] end.
(* commons.rs 1238-1268: buffer[0] is read before any length check *)
Definition OldEpsSecurityContext_dec (b : list N) : res old_eps_ctx :=
  let? x := at_ b 0 in
  let top := N.shiftr x 7 in
  let ksi := N.shiftr (N.land x 56) 3 in
  if top =? 0 then
    need b 33 (IEIncorrect 0) (let? k := slice b 1 33 in Ok (mkOldEps ksi None k None))
  else if top =? 1 then
    need b 65 (IEIncorrect 0) (
    let? k := slice b 1 33 in let? n := slice b 33 65 in
    Ok (mkOldEps ksi (Some (N.land x 7)) k (Some n)))
  else Err (IEIncorrect 0).
(* commons.rs 1274-1280 *)
Definition OldEpsSecurityContext_size (v : old_eps_ctx) : nat := if is_some (oe_next_hop v) then 65 else 33.

(* [if let Ok(x) = r { .. } else { return Err(e) }] *)
Definition orelse {A} (r : res A) (e : GTPV2Error) : res A :=
  match r with Err _ => Err e | x => x end.
(* [for _ in 0..n { let x = dec(&buffer[c..])?; list.push(x); c += size(x) }]: the list and the
   cursor after it *)
Fixpoint many {A} (dec : list N -> res A) (size : A -> nat) (n : nat) (b : list N) (c : nat) : res (list A * nat) :=
  match n with
  | O => Ok ([], c)
  | S k =>
      let? t := slice_from b c in let? x := dec t in
      let? (xs, c') := many dec size k b (c + size x) in Ok (x :: xs, c')
  end.
(* [for x in list { x.marshal(&mut buffer) }] *)
Definition enc_all {A} (enc : A -> list N) (xs : list A) : list N := concat (map enc xs).
(* buffer[..].chunks(2).map(|x| u16::from_be_bytes([x[0], x[1]])) on an even number of octets *)
Fixpoint chunks16 (b : list N) : list N :=
  match b with x :: y :: r => be16 x y :: chunks16 r | _ => [] end.
(* std::net::IpAddr *)
Inductive ipaddr := IpV4 (o : list N) | IpV6 (o : list N).
