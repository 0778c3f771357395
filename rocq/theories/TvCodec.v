(** Model of the typed IEs of gtpv1/ie and gtpv0/ie.  Strings are byte strings; a net.IP is an
    option of its bytes (None is nil), what net.ParseIP and net.IP.String do is not modelled.
    The Must- accessors, which return the value of the accessor or zero, are [must].
    Functions that are the same in both packages are defined once over the table of fixed
    sizes.  No proofs here. *)
From Coq Require Import String ZArith.
From Verif Require Import Base Utils TvIE V2Codec V2Codec2 V2Pco.
Open Scope N_scope.
Open Scope list_scope.

(** if i.Type != t return InvalidTypeError *)
Definition typed1 {A} (t : N) (f : bytes -> res A) (i : ie1) : res A :=
  if i1_type i =? t then f (i1_payload i) else Err EInvalidType.
(** if len(i.Payload) < n return io.ErrUnexpectedEOF *)
Definition at_least {A} (n : nat) (f : bytes -> res A) (p : bytes) : res A :=
  if (len p <? n)%nat then Err EUnexpectedEOF else f p.
(** v, _ := f() *)
Definition must {A} (z : A) (r : res A) : res A := match r with Ok v => Ok v | Err _ => Ok z | Panic => Panic end.
(** the octet at n *)
Definition octet_at (n : nat) (p : bytes) : res N := idx p n.
(** binary.BigEndian.Uint16(p[lo:lo+2]) *)
Definition be16_at (lo : nat) (p : bytes) : res N := do s <- slice p lo (lo + 2); be16 s.

(** ** Accessors of both packages *)
(** return i.Payload[0] *)
Definition acc8 (t : N) : ie1 -> res N := typed1 t (at_least 1 (octet_at 0)).
(** return binary.BigEndian.Uint32(i.Payload) *)
Definition acc32 (t : N) : ie1 -> res N := typed1 t (at_least 4 be32).
(** return i.Payload *)
Definition acc_raw (t : N) : ie1 -> res bytes := typed1 t (fun p => Ok p).
(** gtpv1/ie/p-tmsi-signature.go:19-28, gtpv0/ie/p-tmsi-signature.go:19-28 *)
Definition acc_ptmsi_sig1 : ie1 -> res N := typed1 12 (at_least 3 (fun p => Ok (uint24to32 p))).
(** gtpv1/ie/reordering-required.go:16-25, ms-validated.go:16-25, teardown-ind.go:16-25,
    gtpv0/ie/reordering-required.go:16-25: false for another type and for no payload *)
Definition acc_flag (t : N) (i : ie1) : res bool :=
  if i1_type i =? t then
    if (len (i1_payload i) =? 0)%nat then Ok false else do x <- idx (i1_payload i) 0; Ok (x mod 2 =? 1)
  else Ok false.
(** gtpv1/ie/imsi.go:23-32, gtpv0/ie/imsi.go:23-32 IMSI *)
Definition acc_imsi1 : ie1 -> res bytes := typed1 2 (at_least 1 (fun p => swapped_to_str p true)).
(** gtpv1/ie/msisdn.go:23-32, gtpv0/ie/msisdn.go:23-32 MSISDN *)
Definition acc_msisdn1 : ie1 -> res bytes := typed1 134 (at_least 2 (fun p => do s <- slice_from p 1; swapped_to_str s false)).
(** gtpv1/ie/private-extension.go:36-45, 55-64, gtpv0/ie/private-extension.go:36-45, 55-64 *)
Definition acc_ext_id : ie1 -> res N := typed1 255 (at_least 2 (be16_at 0)).
Definition acc_ext_value : ie1 -> res bytes := typed1 255 (at_least 3 (fun p => slice_from p 2)).
(** gtpv1/ie/end-user-address.go:115-124, 134-143, gtpv0/ie/end-user-address.go:108-117, 127-136 *)
Definition acc_pdp_org : ie1 -> res N := acc8 128.
Definition acc_pdp_number : ie1 -> res N := typed1 128 (at_least 2 (octet_at 1)).
(** gtpv1/ie/ip.go:13-29 IP, gtpv0/ie/end-user-address.go:146-165 IPAddress: the address.
    pdpTypeIETF is 0xf1. *)
Definition acc_ip1 (i : ie1) : res bytes :=
  if (len (i1_payload i) <? 4)%nat then Err EUnexpectedEOF else
  if i1_type i =? 128 then
    do o <- must 0 (acc_pdp_org i);
    if o =? 241 then slice_from (i1_payload i) 2 else Err EMalformed
  else if i1_type i =? 133 then Ok (i1_payload i)
  else Err EInvalidType.
(** gtpv1/ie/gsn-address.go:34-43, gtpv0/ie/gsn-address.go:26-35 GSNAddress;
    gtpv0/ie/charging-gateway-address.go:26-35: the address *)
Definition acc_address (t : N) : ie1 -> res bytes := typed1 t (at_least 4 (fun p => Ok p)).

Section Tv.
Context (tv : N -> option nat).
(** the payload of an IE made by New is filled in afterwards; New has set the length *)
Definition filled1 (t : N) (n : nat) (p : bytes) : ie1 := IE1 t (i1_length (new1 tv t (zeros n))) p.

(** gtpv1/ie/ie.go:369-371, gtpv0/ie/ie.go:225-227 newUint8ValIE *)
Definition new8 (t v : N) : ie1 := new1 tv t [v].
(** gtpv0/ie/ie.go:229-233 newUint16ValIE *)
Definition new16 (t v : N) : res ie1 := do p <- put16 v (zeros 2); Ok (filled1 t 2 p).
(** gtpv1/ie/ie.go:380-384, gtpv0/ie/ie.go:235-239 newUint32ValIE *)
Definition new32 (t v : N) : res ie1 := do p <- put32 v (zeros 4); Ok (filled1 t 4 p).
(** gtpv1/ie/p-tmsi-signature.go:14-16, gtpv0/ie/p-tmsi-signature.go:14-16 *)
Definition new_ptmsi_sig1 (sig : N) : ie1 := new1 tv 12 (uint32to24 sig).
(** gtpv1/ie/ms-validated.go:8-13, reordering-required.go:8-13, teardown-ind.go:8-13,
    gtpv0/ie/reordering-required.go:8-13 *)
Definition new_flag (t : N) (b : bool) : ie1 := new8 t (if b then 255 else 254).
(** v, err := r; if err != nil return nil; return New(t, v) *)
Definition new_or_nil1 (t : N) (r : res bytes) : res (option ie1) :=
  match r with Ok p => Ok (Some (new1 tv t p)) | Err _ => Ok None | Panic => Panic end.
(** gtpv1/ie/msisdn.go:14-20, gtpv0/ie/msisdn.go:14-20 NewMSISDN: "19" in front *)
Definition new_msisdn1 (s : bytes) : res (option ie1) := new_or_nil1 134 (str_to_swapped ([49; 57] ++ s) [ch_f]).
(** gtpv1/ie/private-extension.go:13-18, gtpv0/ie/private-extension.go:13-18 *)
Definition new_private (id : N) (v : bytes) : res ie1 :=
  do p <- on_slice (zeros (2 + len v)) 0 2 (put16 id);
  do p <- copy_from p 2 v;
  Ok (filled1 255 (2 + len v) p).
(** gtpv1/ie/apn.go:13-24, gtpv0/ie/apn.go:13-24 NewAccessPointName; the loop is that of
    EncodeFQDN (utils/utils.go:152-157) *)
Definition new_apn1 (apn : bytes) : res ie1 :=
  do p <- encode_fqdn_loop (zeros (len apn + 1)) 0 (split_dot apn);
  Ok (filled1 131 (len apn + 1) p).
(** gtpv1/ie/end-user-address.go:65-97, gtpv0/ie/end-user-address.go:57-90 *)
Definition new_eua (number : N) (n : nat) (ip : bytes) : res ie1 :=
  do p <- set_idx (zeros n) 0 241; do p <- set_idx p 1 number; do p <- copy_from p 2 ip;
  Ok (filled1 128 n p).
Definition new_eua_v4 (ip : bytes) : res ie1 := new_eua 33 6 ip.
Definition new_eua_v6 (ip : bytes) : res ie1 := new_eua 87 18 ip.
Definition new_eua_ppp : res ie1 :=
  do p <- set_idx (zeros 2) 0 240; do p <- set_idx p 1 241; Ok (set_length1 tv (filled1 128 2 p)).
(** gtpv1/ie/end-user-address.go:46-63, gtpv0/ie/end-user-address.go:38-55 NewEndUserAddressIPv4
    and IPv6, of what net.ParseIP returned *)
Definition new_eua_ipv4 (ip : option bytes) : res ie1 :=
  match to4 ip with Some v => new_eua_v4 v | None => Ok (new1 tv 128 [241; 33]) end.
Definition new_eua_ipv6 (ip : option bytes) : res ie1 :=
  match to16 ip with Some v => new_eua_v6 v | None => Ok (new1 tv 128 [241; 87]) end.
End Tv.

(** ** gtpv1/ie only *)
(** the IEs of one octet, NewX and X: cause.go:10-24, map-cause.go:10-24, recovery.go:10-24, selection-mode.go:12-26,
    nsapi.go:10-24, ranap-cause.go:10-24, apn-restriction.go:10-24, rat-type.go:10-27, and the accessors
    CommonFlags (common-flags.go:22-31), ExtendedCommonFlags (extended-common-flags.go:22-31),
    ExtendedCommonFlagsII (extended-common-flags-ii.go:22-31) *)
Definition octet_ies1 : list (string * N) := [
  ("Cause", 1); ("MAPCause", 11); ("Recovery", 14); ("SelectionMode", 15); ("NSAPI", 20); ("RANAPCause", 21);
  ("APNRestriction", 149); ("RATType", 151)]%string.
(** p-tmsi.go:13-27, charging-id.go:13-27 *)
Definition word_ies1 : list (string * N) := [("PacketTMSI", 5); ("ChargingID", 127)]%string.
(** extension-header-type-list.go:8-19, qos-profile.go:10-22: NewX takes the payload *)
Definition raw_ies1 : list (string * N) := [("ExtensionHeaderTypeList", 141); ("QoSProfile", 135)]%string.
(** teid.go:13-38 NewTEIDDataI, NewTEIDCPlane, NewTEIDDataII, TEID *)
Definition teid_ies1 : list (string * N) := [("TEIDDataI", 16); ("TEIDCPlane", 17); ("TEIDDataII", 18)]%string.
Definition acc_teid1 (i : ie1) : res N :=
  if (len (i1_payload i) <? 4)%nat then Err EUnexpectedEOF else
  if (i1_type i =? 17) || (i1_type i =? 16) || (i1_type i =? 18) then be32 (i1_payload i) else Err EInvalidType.
(** ms-validated.go:8-25, reordering-required.go:8-25, teardown-ind.go:8-25 *)
Definition flag_ies1 : list (string * N) := [("ReorderingRequired", 8); ("MSValidated", 13); ("TeardownInd", 19)]%string.

(** common-flags.go:12-19, extended-common-flags.go:12-19, extended-common-flags-ii.go:12-19: the
    arguments in the order of the bits, highest first; they are taken to be nonnegative *)
Fixpoint shifted (fs : list N) : N :=
  match fs with [] => 0 | f :: r => N.lor (N.shiftl f (N.of_nat (len r))) (shifted r) end.
Definition new_flags1 (t : N) (fs : list N) : ie1 := new1 tv1 t [u8 (shifted fs)].
(** the Is- accessors: ((i.MustX() >> k) & 0x01) != 0 *)
Definition is_set1 (t k : N) (i : ie1) : res bool :=
  do x <- must 0 (acc8 t i); Ok (negb (N.land (N.shiftr x k) 1 =? 0)).
(** common-flags.go:41-78 *)
Definition common_flags : list (string * N) := [
  ("IsDualAddressBearer", 7); ("IsUpgradeQoSSupported", 6); ("IsNRSN", 5); ("IsNoQoSNegotiation", 4);
  ("IsMBMSCountingInformation", 3); ("IsRANProceduresReady", 2); ("IsMBMSServiceType", 1); ("IsProhibitPayloadCompression", 0)]%string.
(** extended-common-flags.go:41-78 *)
Definition extended_common_flags : list (string * N) := [
  ("IsUASI", 7); ("IsBDWI", 6); ("IsPCRI", 5); ("IsVB", 4); ("IsRetLoc", 3); ("IsCPSR", 2); ("IsCCRSI", 1); ("IsUnauthenticatedIMSI", 0)]%string.
(** extended-common-flags-ii.go:41-53 *)
Definition extended_common_flags_ii : list (string * N) := [("IsPMTSMI", 2); ("IsDTCI", 1); ("IsPNSI", 0)]%string.

(** imsi.go:14-20 NewIMSI *)
Definition new_imsi1 (s : bytes) : res (option ie1) := new_or_nil1 tv1 2 (str_to_swapped s [ch_f]).
(** imei.go:15-33 NewIMEISV, IMEISV (strings.TrimSuffix "f") *)
Definition new_imeisv (s : bytes) : res (option ie1) := new_or_nil1 tv1 154 (str_to_swapped s [ch_f]).
Definition acc_imeisv : ie1 -> res bytes := typed1 154 (at_least 1 (fun p => do s <- swapped_to_str p false; Ok (trim_f s))).
(** rai.go:14-34 NewRouteingAreaIdentity *)
Definition new_rai1 (mcc mnc : bytes) (lac rac : N) : res (option ie1) :=
  match str_to_swapped mcc [ch_f] with
  | Panic => Panic | Err _ => Ok None
  | Ok mc =>
      match str_to_swapped mnc [ch_f] with
      | Panic => Panic | Err _ => Ok None
      | Ok mn =>
          do p <- copy_at (zeros 6) 0 2 mc;
          do x <- idx mn 0; do p <- set_idx p 2 x;
          do p <- on_slice p 3 5 (put16 lac);
          do p <- set_idx p 5 rac;
          Ok (Some (filled1 tv1 3 6 p))
      end
  end.
(** mcc-mnc.go:14-29 MCC, 39-54 MNC *)
Definition acc_mcc1 (i : ie1) : res bytes :=
  if i1_type i =? 3 then at_least 2 (fun p => do s <- slice p 0 2; decode_mcc s) (i1_payload i)
  else if i1_type i =? 152 then at_least 3 (fun p => do s <- slice p 1 3; decode_mcc s) (i1_payload i)
  else Err EInvalidType.
Definition acc_mnc1 (i : ie1) : res bytes :=
  if i1_type i =? 3 then at_least 3 (fun p => do s <- slice p 1 3; decode_mnc s) (i1_payload i)
  else if i1_type i =? 152 then at_least 4 (fun p => do s <- slice p 2 4; decode_mnc s) (i1_payload i)
  else Err EInvalidType.
(** lac.go:13-28 LAC *)
Definition acc_lac1 (i : ie1) : res N :=
  if i1_type i =? 3 then at_least 5 (be16_at 3) (i1_payload i)
  else if i1_type i =? 152 then at_least 6 (be16_at 4) (i1_payload i)
  else Err EInvalidType.
(** rac.go:10-26 RAC; locTypeRAI is 2 *)
Definition acc_rac1 (i : ie1) : res N :=
  if i1_type i =? 3 then at_least 6 (octet_at 5) (i1_payload i)
  else if i1_type i =? 152 then
    at_least 7 (fun p => do t <- idx p 0; if t =? 2 then idx p 6 else Err EInvalidType) (i1_payload i)
  else Err EInvalidType.
(** uli.go:22-57 NewUserLocationInformationWithCGI (locTypeCGI is 0) and WithSAI (1) *)
Definition new_uli_area (loc : N) (mcc mnc : bytes) (lac x : N) : res (option ie1) :=
  match encode_plmn mcc mnc with
  | Panic => Panic | Err _ => Ok None
  | Ok plmn =>
      do p <- set_idx (zeros 8) 0 loc;
      do p <- copy_at p 1 4 plmn;
      do p <- on_slice p 4 6 (put16 lac);
      do p <- on_slice p 6 8 (put16 x);
      Ok (Some (filled1 tv1 152 8 p))
  end.
Definition new_uli_cgi := new_uli_area 0.
Definition new_uli_sai := new_uli_area 1.
(** uli.go:60-76 NewUserLocationInformationWithRAI *)
Definition new_uli_rai (mcc mnc : bytes) (lac rac : N) : res (option ie1) :=
  match encode_plmn mcc mnc with
  | Panic => Panic | Err _ => Ok None
  | Ok plmn =>
      do p <- set_idx (zeros 7) 0 2;
      do p <- copy_at p 1 4 plmn;
      do p <- on_slice p 4 6 (put16 lac);
      do p <- set_idx p 6 rac;
      Ok (Some (filled1 tv1 152 7 p))
  end.
(** uli.go:94-109 CGI, 119-134 SAC *)
Definition acc_area (loc : N) : ie1 -> res N := typed1 152 (at_least 2 (fun p =>
  do t <- idx p 0; if t =? loc then at_least 8 (be16_at 6) p else Err EInvalidType)).
Definition acc_cgi1 := acc_area 0.
Definition acc_sac1 := acc_area 1.
(** gsn-address.go:18-31 NewGSNAddressByIP *)
Definition new_gsn1 (ip : option bytes) : option ie1 :=
  match ip with
  | None => None
  | Some b => Some (new1 tv1 133 (match to4 ip with Some v => v | None => b end))
  end.
(** end-user-address.go:30-43 NewEndUserAddressByIP *)
Definition new_eua1 (ip : option bytes) : res (option ie1) :=
  match ip with
  | None => Ok None
  | Some b => do i <- (match to4 ip with Some v => new_eua_v4 tv1 v | None => new_eua_v6 tv1 b end); Ok (Some i)
  end.
(** apn.go:27-48 AccessPointName; every round consumes at least one byte *)
Fixpoint apn_loop1 (fuel : nat) (p : bytes) (offset : nat) : res (list bytes) :=
  match fuel with
  | O => Panic
  | S fuel =>
      if (offset <? len p)%nat then
        do x <- idx p offset;
        let l := N.to_nat x in
        if (len p <? offset + l + 1)%nat then Err EUnexpectedEOF else
        do s <- slice p (offset + 1) (offset + l + 1);
        do r <- apn_loop1 fuel p (offset + (l + 1));
        Ok (s :: r)
      else Ok []
  end.
Definition acc_apn1 : ie1 -> res bytes := typed1 131 (fun p => do ls <- apn_loop1 (S (len p)) p 0; Ok (join_dot ls)).
(** authentication-triplet.go:10-17 NewAuthenticationTriplet; RAND 35-45, SRES 55-65, Kc 75-85 *)
Definition new_triplet (rand sres kc : bytes) : res ie1 :=
  do p <- copy_at (zeros 28) 0 16 rand; do p <- copy_at p 16 20 sres; do p <- copy_at p 20 28 kc;
  Ok (filled1 tv1 9 28 p).
Definition acc_rand (i : ie1) : res bytes :=
  if (i1_type i =? 9) || (i1_type i =? 136) then at_least 16 (fun p => slice p 0 16) (i1_payload i) else Err EInvalidType.
Definition acc_sres : ie1 -> res bytes := typed1 9 (at_least 20 (fun p => slice p 16 20)).
Definition acc_kc : ie1 -> res bytes := typed1 9 (at_least 28 (fun p => slice p 20 28)).
(** authentication-quintuplet.go:10-29 NewAuthenticationQuintuplet *)
Definition new_quintuplet (rand xres ck ik autn : bytes) : res ie1 :=
  let n := (16 + 1 + len xres + 16 + 16 + 1 + len autn)%nat in
  do p <- copy_at (zeros n) 0 16 rand;
  do p <- set_idx p 16 (u8 (N.of_nat (len xres)));
  let o := 17%nat in
  do p <- copy_at p o (o + len xres) xres;
  let o := (o + len xres)%nat in
  do p <- copy_at p o (o + 16) ck;
  let o := (o + 16)%nat in
  do p <- copy_at p o (o + 16) ik;
  let o := (o + 16)%nat in
  do p <- set_idx p o (u8 (N.of_nat (len autn)));
  let o := (o + 1)%nat in
  do p <- copy_at p o (o + len autn) autn;
  Ok (filled1 tv1 136 n p).
(** authentication-quintuplet.go:32-41 AuthenticationQuintuplet *)
Definition acc_quintuplet : ie1 -> res bytes := typed1 136 (at_least 1 (fun p => Ok p)).
(** authentication-quintuplet.go:51-70 XRES: nothing at all for no payload, whatever the type *)
Definition acc_xres (i : ie1) : res bytes :=
  if (len (i1_payload i) =? 0)%nat then Ok [] else
  typed1 136 (at_least 17 (fun p => do n <- idx p 16;
    at_least (17 + N.to_nat n) (fun p => slice p 17 (17 + N.to_nat n)) p)) i.
(** authentication-quintuplet.go:80-95 CK, 105-120 IK *)
Definition acc_ck : ie1 -> res bytes := typed1 136 (at_least 18 (fun p => do n <- idx p 16;
  let o := (17 + N.to_nat n)%nat in at_least (o + 16) (fun p => slice p o (o + 16)) p)).
Definition acc_ik : ie1 -> res bytes := typed1 136 (at_least 34 (fun p => do n <- idx p 16;
  let o := (33 + N.to_nat n)%nat in at_least (o + 16) (fun p => slice p o (o + 16)) p)).
(** authentication-quintuplet.go:130-145 AUTN *)
Definition acc_autn : ie1 -> res bytes := typed1 136 (at_least 50 (fun p => do n <- idx p 16;
  let o := (49 + N.to_nat n)%nat in
  do m <- idx p 50;
  at_least (o + N.to_nat m) (fun p => slice p o (o + N.to_nat m)) p)).
(** ms-timezone.go:21-33 NewMSTimeZone, 36-51 TimeZone, 61-70 DaylightSaving; the arithmetic is
    that of gtpv2/ie/ue-timezone.go *)
Definition new_ms_time_zone (tz : Z) (dst : N) : res ie1 :=
  do p <- set_idx (zeros 2) 0 (tz_octet tz); do p <- set_idx p 1 (N.land dst 3); Ok (filled1 tv1 153 2 p).
Definition acc_ms_time_zone : ie1 -> res Z := typed1 153 (at_least 1 (fun p => do x <- idx p 0; Ok (tz_value x))).
Definition acc_ms_dst : ie1 -> res N := typed1 153 (at_least 2 (octet_at 1)).
(** uli-timestamp.go:14-31; the argument is what time.Time.Sub returned, the result is in Unix seconds *)
Definition new_uli_timestamp1 (ns : Z) : res ie1 := new32 tv1 214 (Z.to_N ((ns mod 2 ^ 64) / 1000000000 mod 2 ^ 32)).
Definition acc_timestamp1 (i : ie1) : res Z :=
  if (len (i1_payload i) <? 4)%nat then Err EUnexpectedEOF else
  if i1_type i =? 214 then do v <- be32 (i1_payload i); Ok ((Z.of_N v - 2208988800) mod 2 ^ 32)%Z else Err EInvalidType.
(** pco.go:9-76 ConfigurationProtocolOption is PCOContainer of gtpv2/ie/pco.go, and so are the
    loops of PCOPayload; 103-114 MarshalTo, 127-146 UnmarshalBinary, 159-182 *)
Definition new_pco1 (proto : N) (opts : list container) : res (option ie1) :=
  let n := (1 + containers_len opts)%nat in
  match (do b <- set_idx (zeros n) 0 (N.lor (N.land proto 7) 128); containers_mto opts 1 b) with
  | Ok p => Ok (Some (filled1 tv1 132 n p)) | Err _ => Ok None | Panic => Panic
  end.
Definition acc_pco1 : ie1 -> res (N * list container) := typed1 132 (fun p =>
  if (len p =? 0)%nat then Err ETooShortToParse else
  do x <- idx p 0; do cs <- containers_parse (S (len p)) p 1; Ok (N.land x 7, cs)).

(** ** gtpv0/ie only *)
(** cause.go:10-24, recovery.go:10-24, selection-mode.go:12-26, ms-not-reachable-reason.go:10-24 *)
Definition octet_ies0 : list (string * N) := [("Cause", 1); ("Recovery", 14); ("SelectionMode", 15); ("MSNotReachableReason", 19)]%string.
(** tlli.go:13-27, p-tmsi.go:13-27, charging-id.go:13-27 *)
Definition word_ies0 : list (string * N) := [("TemporaryLogicalLinkIdentity", 4); ("PacketTMSI", 5); ("ChargingID", 127)]%string.
(** imsi.go:14-20 NewIMSI: an empty IE on an error *)
Definition new_imsi0 (s : bytes) : res ie1 :=
  match str_to_swapped s [ch_f] with Ok p => Ok (new1 tv0 2 p) | Err _ => Ok (new1 tv0 2 []) | Panic => Panic end.
(** rai.go:15-30 NewRouteingAreaIdentity *)
Definition new_rai0 (mcc mnc : bytes) (lac rac : N) : res (option ie1) :=
  match encode_plmn mcc mnc with
  | Panic => Panic | Err _ => Ok None
  | Ok plmn =>
      do p <- copy_at (zeros 6) 0 3 plmn;
      do p <- on_slice p 3 5 (put16 lac);
      do p <- set_idx p 5 rac;
      Ok (Some (filled1 tv0 3 6 p))
  end.
(** rai.go:48-58 MCC, 68-78 MNC, 88-98 LAC, 108-118 RAC *)
Definition acc_mcc0 : ie1 -> res bytes := typed1 3 (at_least 2 (fun p => do s <- slice p 0 2; swapped_to_str s false)).
Definition acc_mnc0 : ie1 -> res bytes := typed1 3 (at_least 2 (fun p => do s <- slice p 1 2; swapped_to_str s true)).
Definition acc_lac0 : ie1 -> res N := typed1 3 (at_least 5 (be16_at 3)).
Definition acc_rac0 : ie1 -> res N := typed1 3 (at_least 6 (octet_at 5)).
(** gsn-address.go:13-23, charging-gateway-address.go:13-23, of what net.ParseIP returned *)
Definition new_address0 (t : N) (ip : option bytes) : ie1 :=
  new1 tv0 t (match to4 ip with Some v => v | None => ip_bytes ip end).
(** end-user-address.go:22-35 NewEndUserAddress, of what net.ParseIP returned *)
Definition new_eua0 (ip : option bytes) : res ie1 :=
  match to4 ip with Some v => new_eua_v4 tv0 v | None => new_eua_v6 tv0 (ip_bytes ip) end.
(** apn.go:27-51 AccessPointName *)
Fixpoint apn_loop0 (fuel : nat) (p : bytes) (offset : nat) : res (list bytes) :=
  match fuel with
  | O => Panic
  | S fuel =>
      if (offset <? len p)%nat then
        do x <- idx p offset;
        let l := N.to_nat x in
        if (len p <=? offset + l + 1)%nat then Err EUnexpectedEOF else
        do s <- slice p (offset + 1) (offset + l + 1);
        do r <- apn_loop0 fuel p (offset + (l + 1));
        Ok (s :: r)
      else Ok []
  end.
Definition acc_apn0 : ie1 -> res bytes := typed1 131 (at_least 1 (fun p => do ls <- apn_loop0 (S (len p)) p 0; Ok (join_dot ls))).
(** qos-profile.go:10-17 NewQualityOfServiceProfile and its accessors 35-120 *)
Definition new_qos0 (delay reliability peak precedence mean : N) : res ie1 :=
  do p <- set_idx (zeros 3) 0 (N.lor (u8 (N.shiftl (N.land delay 7) 3)) (N.land reliability 7));
  do p <- set_idx p 1 (N.lor (u8 (N.shiftl (N.land peak 15) 4)) (N.land precedence 7));
  do p <- set_idx p 2 (N.land mean 31);
  Ok (filled1 tv0 6 3 p).
Definition masked (n : nat) (m : N) : ie1 -> res N := typed1 6 (at_least (S n) (fun p => do x <- idx p n; Ok (N.land x m))).
Definition acc_qos_delay := masked 0 56.
Definition acc_qos_reliability := masked 0 7.
Definition acc_qos_peak := masked 1 240.
Definition acc_qos_precedence := masked 1 7.
Definition acc_qos_mean := masked 2 15.
(** flow-label.go:13-51 FlowLabelDataI (16) and FlowLabelSignalling (17) *)
Definition acc_flow (t : N) : ie1 -> res N := typed1 t (at_least 2 be16).
(** flow-label.go:61-66 NewFlowLabelDataII, 84-95 NSAPI, 105-123 FlowLabelData *)
Definition new_flow_ii (nsapi label : N) : res ie1 :=
  do p <- set_idx (zeros 3) 0 (N.lor nsapi 240); do p <- on_slice p 1 3 (put16 label); Ok (filled1 tv0 18 3 p).
Definition acc_nsapi0 (i : ie1) : res N :=
  if (len (i1_payload i) =? 0)%nat then Err EUnexpectedEOF else
  if i1_type i =? 18 then do x <- idx (i1_payload i) 0; Ok (N.land x 15) else Err EInvalidType.
Definition acc_flow_data (i : ie1) : res N :=
  if (len (i1_payload i) <? 2)%nat then Err EUnexpectedEOF else
  if i1_type i =? 16 then acc_flow 16 i
  else if i1_type i =? 17 then acc_flow 17 i
  else if i1_type i =? 18 then at_least 3 (be16_at 1) (i1_payload i)
  else Err EInvalidType.
