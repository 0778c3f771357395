(** Model of the typed IE codecs of gtpv2/ie: addresses, F-TEID, PAA, cause, QoS, flags,
    identities, timers and the one-value IEs.  Must* accessors are the same functions with
    the error discarded and are not repeated.  No proofs here. *)
From Coq Require Import String.
From Verif Require Import Base Utils V2IE.
Open Scope string_scope.
Open Scope N_scope.
Open Scope list_scope.

(** gtpv2/ie/utils.go:7-37 has1stBit .. has8thBit: bit k of an octet, k from 0 *)
Definition hasbit (k f : N) : bool := N.shiftr (N.land f (2 ^ k)) k =? 1.

(** A net.IP: None is nil.  net.ParseIP is not modelled: its result is the argument.
    net/ip.go To4 *)
Definition v4in6 : bytes := [0; 0; 0; 0; 0; 0; 0; 0; 0; 0; 255; 255].
Definition to4 (ip : option bytes) : option bytes :=
  match ip with
  | None => None
  | Some b =>
      if (len b =? 4)%nat then Some b
      else if (len b =? 16)%nat && bytes_eqb (firstn 12 b) v4in6 then Some (skipn 12 b)
      else None
  end.
(** net/ip.go To16 *)
Definition to16 (ip : option bytes) : option bytes :=
  match ip with
  | None => None
  | Some b =>
      if (len b =? 4)%nat then Some (v4in6 ++ b)
      else if (len b =? 16)%nat then Some b
      else None
  end.
(** the bytes copied from a net.IP, none for nil *)
Definition ip_bytes (ip : option bytes) : bytes := match ip with Some b => b | None => [] end.

Section G.
Context (g : N -> bool).

(** [b, err := v.Marshal(); if err != nil return nil; return New(t, 0x00, b)] *)
Definition new_or_nil (t : N) (r : res bytes) : res (option ie2) :=
  match r with Ok b => Ok (Some (new2 g t 0 b)) | Err _ => Ok None | Panic => Panic end.

(** gtpv2/ie/bearer-context.go:158-172 BearerContext: the children are parsed again from
    the payload *)
Definition bearer_context (i : ie2) : res (list ie2) :=
  if negb (i2_type i =? 93) then Err EInvalidType else
  if (len (i2_payload i) <? 1)%nat then Err EUnexpectedEOF else
  multi2 g (i2_payload i).
(** the accessor pattern [switch i.Type {case T: f(i); case BearerContext: f(first child of
    type T)}], e.g. gtpv2/ie/ebi.go:13-32 *)
Definition via_context {A} (t : N) (f : ie2 -> res A) (i : ie2) : res A :=
  if i2_type i =? t then f i
  else if i2_type i =? 93 then
    do ies <- bearer_context i;
    match find (fun c => i2_type c =? t) ies with
    | Some c => f c
    | None => Err EIENotFound
    end
  else Err EInvalidType.
(** [if i.Type != T {InvalidTypeError}; f(i)] *)
Definition typed {A} (t : N) (f : ie2 -> res A) (i : ie2) : res A :=
  if i2_type i =? t then f i else Err EInvalidType.

(** ** One-value IEs.  The constructor is NewUint8IE / NewUint16IE / NewUint32IE /
    NewStringIE / NewFQDNIE and the accessor the matching ValueAs*, at the type given.
    (charging-id.go and ebi.go also look into a BearerContext and are below.) *)
Definition u8_ies : list (string * N) := [
  ("Recovery", 3)                     (* recovery.go:8-18 *);
  ("RATType", 82)                     (* rat-type.go:8-20 *);
  ("PDNType", 99)                     (* pdn-type.go:8-20 *);
  ("ProcedureTransactionID", 100)     (* pti.go:8-18 *);
  ("HopCounter", 113)                 (* hop-counter.go:8-18 *);
  ("APNRestriction", 127)             (* apn-restriction.go:8-31 *);
  ("SelectionMode", 128)              (* selection-mode.go:8-18 *);
  ("NodeType", 135)                   (* node-type.go:8-18 *);
  ("RFSPIndex", 144)                  (* rfsp-index.go:8-18 *);
  ("CSGMembershipIndication", 148)    (* cmi.go:10-18 *);
  ("ServiceIndicator", 149)           (* service-indicator.go:8-18 *);
  ("DetachType", 150)                 (* detach-type.go:8-18 *);
  ("NodeFeatures", 152)               (* node-features.go:8-18 *)
  ].
Definition u16_ies : list (string * N) := [
  ("ChargingCharacteristics", 95)     (* charging-characteristics.go:8-18 *);
  ("PortNumber", 126)                 (* port-number.go:8-20 *);
  ("IntegerNumber", 187)              (* integer-number.go:8-20 *)
  ].
Definition u32_ies : list (string * N) := [
  ("TMSI", 88)                        (* tmsi.go:8-20 *);
  ("PacketTMSI", 111)                 (* p-tmsi.go:8-18 *)
  ].
Definition string_ies : list (string * N) := [
  ("LocalDistinguishedName", 151)     (* ldn.go:8-18 *)
  ].
Definition fqdn_ies : list (string * N) := [
  ("AccessPointName", 71)             (* apn.go:8-18 *);
  ("FullyQualifiedDomainName", 136)   (* fqdn.go:8-18 *)
  ].
Definition acc_u8 (t : N) : ie2 -> res N := typed t (value_u8 g).
Definition acc_u16 (t : N) : ie2 -> res N := typed t (value_u16 g).
Definition acc_u32 (t : N) : ie2 -> res N := typed t (value_u32 g).
Definition acc_string (t : N) : ie2 -> res bytes := typed t (value_string g).
Definition acc_fqdn (t : N) : ie2 -> res bytes := typed t (value_fqdn g).

(** gtpv2/ie/ebi.go:8-32 *)
Definition new_ebi (ebi : N) : ie2 := new_uint8 g 73 (N.land ebi 15).
Definition acc_ebi : ie2 -> res N := via_context 73 (value_u8 g).
(** gtpv2/ie/charging-id.go:8-32 *)
Definition new_charging_id (id : N) : ie2 := new_uint32 g 94 id.
Definition acc_charging_id : ie2 -> res N := via_context 94 (value_u32 g).
(** gtpv2/ie/pdn-type.go:13-20 PDNType also reads the first octet of a PAA *)
Definition acc_pdn_type (i : ie2) : res N :=
  if (i2_type i =? 99) || (i2_type i =? 79) then value_u8 g i else Err EInvalidType.
(** gtpv2/ie/csg-id.go:13-30 *)
Definition new_csg_id (id : N) : ie2 := new_uint32 g 147 (N.land id 134217727).
Definition acc_csg_id (i : ie2) : res N :=
  if i2_type i =? 147 then value_u32 g i
  else if i2_type i =? 145 then
    if (len (i2_payload i) <? 7)%nat then Err EUnexpectedEOF else
    do s <- slice (i2_payload i) 3 7; do v <- be32 s; Ok (N.land v 134217727)
  else Err EInvalidType.
(** gtpv2/ie/cmi.go:15-27 CMI: for a UserCSGInformation IE the whole octet *)
Definition acc_cmi (i : ie2) : res N :=
  if i2_type i =? 148 then value_u8 g i
  else if i2_type i =? 145 then
    if (len (i2_payload i) <? 8)%nat then Err EUnexpectedEOF else idx (i2_payload i) 7
  else Err EInvalidType.
(** gtpv2/ie/p-tmsi-signature.go:14-28 *)
Definition new_ptmsi_sig (sig : N) : ie2 := new2 g 112 0 (uint32to24 sig).
Definition acc_ptmsi_sig : ie2 -> res N := typed 112 (fun i =>
  if (len (i2_payload i) <? 1)%nat then Err EUnexpectedEOF else Ok (uint24to32 (i2_payload i))).
(** gtpv2/ie/private-extension.go:13-50 *)
Definition new_private_extension (id : N) (v : bytes) : res ie2 :=
  do p <- on_slice (zeros (2 + len v)) 0 2 (put16 id);
  do p <- copy_from p 2 v;
  Ok (IE2 255 (u16 (N.of_nat (2 + len v))) 0 p []).
Definition acc_enterprise_id : ie2 -> res N := typed 255 (fun i =>
  if (len (i2_payload i) <? 2)%nat then Err EUnexpectedEOF else
  do s <- slice (i2_payload i) 0 2; be16 s).
Definition acc_private_extension : ie2 -> res bytes := typed 255 (fun i =>
  if (len (i2_payload i) <? 3)%nat then Err EUnexpectedEOF else slice_from (i2_payload i) 2).

(** ** IP addresses, PAA, F-TEID, data forwarding *)

(** gtpv2/ie/ip-addr.go:13-23 NewIPAddress, 26-37 NewIPAddressNetIP: the same for what
    net.ParseIP returns (nil or 16 bytes) *)
Definition new_ip_address (ip : option bytes) : ie2 :=
  match to4 ip with
  | Some v => new2 g 74 0 v
  | None => match to16 ip with Some v => new2 g 74 0 v | None => new2 g 74 0 (ip_bytes ip) end
  end.

(** gtpv2/ie/paa.go:77-82 PDNAddressAllocationFields *)
Record paa : Type := Paa { paa_type : N; paa_v4 : option bytes; paa_prefix : N; paa_v6 : option bytes }.
(** paa.go:208-222 MarshalLen *)
Definition paa_mlen (f : paa) : nat :=
  if paa_type f =? 1 then 5%nat else if paa_type f =? 2 then 18%nat
  else if paa_type f =? 3 then 22%nat else 1%nat.
(** paa.go:105-150 MarshalTo *)
Definition paa_mto (f : paa) (b : bytes) : res bytes :=
  let l := len b in
  if (l <? 1)%nat then Err EUnexpectedEOF else
  do b <- set_idx b 0 (N.land (paa_type f) 7);
  if paa_type f =? 1 then
    if (l <? 5)%nat then Err EUnexpectedEOF else
    match paa_v4 f with Some _ => copy_at b 1 5 (ip_bytes (to4 (paa_v4 f))) | None => Ok b end
  else if paa_type f =? 2 then
    if (l <? 18)%nat then Err EUnexpectedEOF else
    do b <- set_idx b 1 (paa_prefix f);
    copy_at b 2 18 (ip_bytes (to16 (paa_v6 f)))
  else if paa_type f =? 3 then
    if (l <? 22)%nat then Err EUnexpectedEOF else
    do b <- set_idx b 1 (paa_prefix f);
    do b <- copy_at b 2 18 (ip_bytes (to16 (paa_v6 f)));
    copy_at b 18 22 (ip_bytes (to4 (paa_v4 f)))
  else Ok b.
(** paa.go:95-102 Marshal *)
Definition paa_marshal (f : paa) : res bytes := paa_mto f (zeros (paa_mlen f)).
(** paa.go:153-205 Parse / UnmarshalBinary *)
Definition paa_parse (b : bytes) : res paa :=
  let l := len b in
  if (l <? 1)%nat then Err EUnexpectedEOF else
  do x <- idx b 0;
  let t := N.land x 7 in
  if t =? 1 then
    if (l <? 5)%nat then Err EUnexpectedEOF else
    do a <- slice b 1 5; Ok (Paa t (Some a) 0 None)
  else if t =? 2 then
    if (l <? 18)%nat then Err EUnexpectedEOF else
    do p <- idx b 1; do a <- slice b 2 18; Ok (Paa t None p (Some a))
  else if t =? 3 then
    if (l <? 22)%nat then Err EUnexpectedEOF else
    do p <- idx b 1; do a <- slice b 2 18; do c <- slice b 18 22; Ok (Paa t (Some c) p (Some a))
  else Ok (Paa t None 0 None).
(** paa.go:46-62 NewPDNAddressAllocationNetIP (28-35 with net.ParseIP) *)
Definition new_paa (ip : option bytes) (prefix : N) : res (option ie2) :=
  new_or_nil 79 (paa_marshal
    (match to4 ip with
     | Some v => Paa 1 (Some v) 0 None
     | None => match to16 ip with
               | Some v => Paa 2 None prefix (Some v)
               | None => Paa 4 None 0 None
               end
     end)).
(** paa.go:66-74 NewPDNAddressAllocationDualNetIP (41-43 with net.ParseIP) *)
Definition new_paa_dual (v4 v6 : option bytes) (prefix : N) : res (option ie2) :=
  new_or_nil 79 (paa_marshal (Paa 3 v4 prefix v6)).

(** gtpv2/ie/f-teid.go:46-52 FullyQualifiedTEIDFields *)
Record fteid : Type := FTeid {
  ft_flags : N; ft_if : N; ft_teid : N; ft_v4 : option bytes; ft_v6 : option bytes }.
(** f-teid.go:55-71 NewFullyQualifiedTEIDFields *)
Definition new_fteid_fields (ift teid : N) (v4 v6 : option bytes) : fteid :=
  FTeid (N.lor (match to4 v4 with Some _ => 128 | None => 0 end)
               (match to16 v6 with Some _ => 64 | None => 0 end))
        ift teid (to4 v4) (to16 v6).
(** f-teid.go:161-171 MarshalLen *)
Definition fteid_mlen (f : fteid) : nat :=
  (5 + (if hasbit 7 (ft_flags f) then 4 else 0) + (if hasbit 6 (ft_flags f) then 16 else 0))%nat.
(** f-teid.go:84-115 MarshalTo *)
Definition fteid_mto (f : fteid) (b : bytes) : res bytes :=
  let l := len b in
  if (l <? 5)%nat then Err EUnexpectedEOF else
  do b <- set_idx b 0 (ft_if f);
  do b <- on_slice b 1 5 (put32 (ft_teid f));
  do r <- (match ft_v4 f with
           | None => Ok (b, 5%nat)
           | Some _ =>
               if (l <? 9)%nat then Err EUnexpectedEOF else
               match to4 (ft_v4 f) with
               | None => Ok (b, 5%nat)
               | Some v =>
                   do x <- idx b 0; do b <- set_idx b 0 (N.lor x 128);
                   do b <- copy_at b 5 9 v; Ok (b, 9%nat)
               end
           end);
  let '(b, off) := r in
  match ft_v6 f with
  | None => Ok b
  | Some _ =>
      if (l <? off + 16)%nat then Err EUnexpectedEOF else
      match to16 (ft_v6 f) with
      | None => Ok b
      | Some v => do x <- idx b 0; do b <- set_idx b 0 (N.lor x 64); copy_at b off (off + 16) v
      end
  end.
(** f-teid.go:74-81 Marshal *)
Definition fteid_marshal (f : fteid) : res bytes := fteid_mto f (zeros (fteid_mlen f)).
(** f-teid.go:118-158 Parse / UnmarshalBinary; To4 / To16 of a slice of the right length
    return it *)
Definition fteid_parse (b : bytes) : res fteid :=
  let l := len b in
  if (l <? 5)%nat then Err EUnexpectedEOF else
  do x <- idx b 0;
  let flags := N.land x 192 in
  do s <- slice b 1 5; do teid <- be32 s;
  do r <- (if hasbit 7 flags then
             if (l <? 9)%nat then Err EUnexpectedEOF else
             do a <- slice b 5 9; Ok (to4 (Some a), 9%nat)
           else Ok (None, 5%nat));
  let '(v4, off) := r in
  do v6 <- (if hasbit 6 flags then
              if (l <? off + 16)%nat then Err EUnexpectedEOF else
              do a <- slice b off (off + 16); Ok (to16 (Some a))
            else Ok None);
  Ok (FTeid flags (N.land x 63) teid v4 v6).
(** f-teid.go:14-33 NewFullyQualifiedTEID, NewFullyQualifiedTEIDNetIP *)
Definition new_fteid (ift teid : N) (v4 v6 : option bytes) : res (option ie2) :=
  new_or_nil 87 (fteid_marshal (new_fteid_fields ift teid v4 v6)).
(** f-teid.go:36-43 FullyQualifiedTEID *)
Definition acc_fteid : ie2 -> res fteid := typed 87 (fun i => fteid_parse (i2_payload i)).
(** f-teid.go:174-199 HasIPv4, HasIPv6 *)
Definition has_ip_bit (k : N) (i : ie2) : bool :=
  if i2_type i =? 87 then match i2_payload i with [] => false | x :: _ => hasbit k x end else false.
Definition has_ipv4 (i : ie2) : bool := has_ip_bit 7 i.
Definition has_ipv6 (i : ie2) : bool := has_ip_bit 6 i.
(** f-teid.go:202-211 InterfaceType *)
Definition acc_if_type : ie2 -> res N := typed 87 (fun i =>
  if (len (i2_payload i) <? 1)%nat then Err EUnexpectedEOF else
  do x <- idx (i2_payload i) 0; Ok (N.land x 63)).
(** f-teid.go:221-246 GREKey *)
Definition acc_gre_key (i : ie2) : res N :=
  let p := i2_payload i in
  if (len p <? 6)%nat then Err EUnexpectedEOF else
  if i2_type i =? 87 then do s <- slice p 1 5; be32 s
  else if i2_type i =? 90 then
    do x <- idx p 0;
    if x =? 4 then if (len p <? 9)%nat then Err EUnexpectedEOF else do s <- slice p 5 9; be32 s
    else if x =? 16 then if (len p <? 21)%nat then Err EUnexpectedEOF else do s <- slice p 17 21; be32 s
    else Err EMalformed
  else Err EInvalidType.
(** f-teid.go:256-282 TEID *)
Definition acc_teid (i : ie2) : res N :=
  let p := i2_payload i in
  if (len p <? 5)%nat then Err EUnexpectedEOF else
  if i2_type i =? 87 then do s <- slice p 1 5; be32 s
  else if i2_type i =? 91 then
    do x <- idx p 0;
    if x =? 4 then if (len p <? 9)%nat then Err EUnexpectedEOF else do s <- slice p 5 9; be32 s
    else if x =? 16 then if (len p <? 21)%nat then Err EUnexpectedEOF else do s <- slice p 17 21; be32 s
    else Err EMalformed
  else Err EInvalidType.
(** gtpv2/ie/ip-addr.go:64-132 IP *)
Definition acc_ip (i : ie2) : res (option bytes) :=
  let p := i2_payload i in
  if (len p <? 4)%nat then Err EUnexpectedEOF else
  if i2_type i =? 74 then Ok (Some p)
  else if i2_type i =? 79 then
    if (len p <? 5)%nat then Err EUnexpectedEOF else
    do a <- paa_parse p;
    if (paa_type a =? 1) || (paa_type a =? 3) then Ok (paa_v4 a)
    else if paa_type a =? 2 then Ok (paa_v6 a) else Err EIEValueNotFound
  else if i2_type i =? 90 then
    do x <- idx p 0;
    if x =? 4 then if (len p <? 5)%nat then Err EUnexpectedEOF else do s <- slice p 1 5; Ok (Some s)
    else if x =? 16 then if (len p <? 17)%nat then Err EUnexpectedEOF else do s <- slice p 1 17; Ok (Some s)
    else Err EMalformed
  else if i2_type i =? 91 then
    do x <- idx p 1;
    if x =? 4 then if (len p <? 6)%nat then Err EUnexpectedEOF else do s <- slice p 2 6; Ok (Some s)
    else if x =? 16 then if (len p <? 18)%nat then Err EUnexpectedEOF else do s <- slice p 2 18; Ok (Some s)
    else Err EMalformed
  else if i2_type i =? 87 then
    do f <- fteid_parse p;
    if has_ipv4 i then Ok (ft_v4 f) else if has_ipv6 i then Ok (ft_v6 f) else Err EIEValueNotFound
  else Err EInvalidType.
Definition found (ip : option bytes) : res bytes :=
  match ip with Some v => Ok v | None => Err EIEValueNotFound end.
(** ip-addr.go:142-152 IPv4 *)
Definition acc_ipv4 (i : ie2) : res bytes := do ip <- acc_ip i; found (to4 ip).
(** ip-addr.go:162-203 IPv6 *)
Definition acc_ipv6 (i : ie2) : res bytes :=
  let p := i2_payload i in
  if (len p <? 4)%nat then Err EUnexpectedEOF else
  if (i2_type i =? 74) || (i2_type i =? 90) || (i2_type i =? 91) then
    do ip <- acc_ip i; found (to16 ip)
  else if i2_type i =? 79 then do a <- paa_parse p; found (to16 (paa_v6 a))
  else if i2_type i =? 87 then
    do f <- fteid_parse p; if has_ipv6 i then found (to16 (ft_v6 f)) else Err EIEValueNotFound
  else Err EInvalidType.

(** gtpv2/ie/s1udf.go:46-51 S1UDataForwardingFields *)
Record s1udf : Type := S1udf { s1_ebi : N; s1_alen : N; s1_addr : bytes; s1_teid : N }.
(** s1udf.go:54-76, the same address rules as s103pdf.go:55-78 *)
Definition addr_fields (ip : option bytes) : N * bytes :=
  match to4 ip with
  | Some v => (4, v)
  | None => match to16 ip with
            | Some v => (16, v)
            | None => (u8 (N.of_nat (len (ip_bytes ip))), ip_bytes ip)
            end
  end.
Definition new_s1udf_fields (ebi : N) (ip : option bytes) (teid : N) : s1udf :=
  S1udf ebi (fst (addr_fields ip)) (snd (addr_fields ip)) teid.
(** s1udf.go:149-151 MarshalLen *)
Definition s1udf_mlen (f : s1udf) : nat := (2 + N.to_nat (s1_alen f) + 4)%nat.
(** s1udf.go:89-111 MarshalTo *)
Definition s1udf_mto (f : s1udf) (b : bytes) : res bytes :=
  let l := len b in
  if (l <? 2)%nat then Err EUnexpectedEOF else
  do b <- set_idx b 0 (N.land (s1_ebi f) 15);
  do b <- set_idx b 1 (s1_alen f);
  let n := N.to_nat (s1_alen f) in
  if (l <? 2 + n)%nat then Err EUnexpectedEOF else
  do b <- copy_at b 2 (2 + n) (s1_addr f);
  if (l <? 2 + n + 4)%nat then Err EUnexpectedEOF else
  on_slice b (2 + n) (2 + n + 4) (put32 (s1_teid f)).
Definition s1udf_marshal (f : s1udf) : res bytes := s1udf_mto f (zeros (s1udf_mlen f)).
(** s1udf.go:114-146 Parse / UnmarshalBinary *)
Definition s1udf_parse (b : bytes) : res s1udf :=
  let l := len b in
  if (l <? 2)%nat then Err EUnexpectedEOF else
  do x <- idx b 0; do y <- idx b 1;
  let n := N.to_nat y in
  if (l <? 2 + n)%nat then Err EUnexpectedEOF else
  do a <- slice b 2 (2 + n);
  if (l <? 2 + n + 4)%nat then Err EUnexpectedEOF else
  do s <- slice b (2 + n) (2 + n + 4); do teid <- be32 s;
  Ok (S1udf (N.land x 15) y a teid).
(** s1udf.go:14-33 *)
Definition new_s1udf (ebi : N) (ip : option bytes) (teid : N) : res (option ie2) :=
  new_or_nil 91 (s1udf_marshal (new_s1udf_fields ebi ip teid)).

(** gtpv2/ie/s103pdf.go:46-52 S103PDNDataForwardingInfoFields *)
Record s103 : Type := S103 { s3_alen : N; s3_addr : bytes; s3_key : N; s3_num : N; s3_ebis : bytes }.
Definition new_s103_fields (ip : option bytes) (key : N) (ebis : bytes) : s103 :=
  S103 (fst (addr_fields ip)) (snd (addr_fields ip)) key (u8 (N.of_nat (len ebis))) ebis.
(** s103pdf.go:179-181 MarshalLen *)
Definition s103_mlen (f : s103) : nat := (1 + N.to_nat (s3_alen f) + 4 + 1 + N.to_nat (s3_num f))%nat.
(** s103pdf.go:118-121 the loop over the EBIs: b[offset] panics when there are too many *)
Fixpoint ebis_mto (ebis : bytes) (off : nat) (b : bytes) : res bytes :=
  match ebis with
  | [] => Ok b
  | e :: r => do b <- set_idx b off (N.land e 15); ebis_mto r (S off) b
  end.
(** s103pdf.go:91-124 MarshalTo *)
Definition s103_mto (f : s103) (b : bytes) : res bytes :=
  let l := len b in
  if (l <? 2)%nat then Err EUnexpectedEOF else
  do b <- set_idx b 0 (s3_alen f);
  let n := N.to_nat (s3_alen f) in
  if (l <? 1 + n)%nat then Err EUnexpectedEOF else
  do b <- copy_at b 1 (1 + n) (s3_addr f);
  if (l <? 1 + n + 4)%nat then Err EUnexpectedEOF else
  do b <- on_slice b (1 + n) (1 + n + 4) (put32 (s3_key f));
  do b <- set_idx b (1 + n + 4) (s3_num f);
  if (l <? 1 + n + 4 + 1 + N.to_nat (s3_num f))%nat then Err EUnexpectedEOF else
  ebis_mto (s3_ebis f) (1 + n + 4 + 1) b.
Definition s103_marshal (f : s103) : res bytes := s103_mto f (zeros (s103_mlen f)).
(** s103pdf.go:127-176 Parse / UnmarshalBinary *)
Definition s103_parse (b : bytes) : res s103 :=
  let l := len b in
  if (l <? 2)%nat then Err EUnexpectedEOF else
  do x <- idx b 0;
  let n := N.to_nat x in
  if (l <? 1 + n)%nat then Err EUnexpectedEOF else
  do a <- slice b 1 (1 + n);
  if (l <? 1 + n + 4)%nat then Err EUnexpectedEOF else
  do s <- slice b (1 + n) (1 + n + 4); do key <- be32 s;
  if (l <=? 1 + n + 4)%nat then Err EUnexpectedEOF else
  do num <- idx b (1 + n + 4);
  if (l <? 1 + n + 4 + 1 + N.to_nat num)%nat then Err EUnexpectedEOF else
  do e <- slice b (1 + n + 4 + 1) (1 + n + 4 + 1 + N.to_nat num);
  Ok (S103 x a key num e).
(** s103pdf.go:14-33 *)
Definition new_s103 (ip : option bytes) (key : N) (ebis : bytes) : res (option ie2) :=
  new_or_nil 90 (s103_marshal (new_s103_fields ip key ebis)).
(** s103pdf.go:200-234 EBIs: at most what is there *)
Definition acc_ebis : ie2 -> res bytes := typed 90 (fun i =>
  let p := i2_payload i in
  if (len p <? 1)%nat then Err EUnexpectedEOF else
  do x <- idx p 0;
  if x =? 4 then
    if (len p <=? 9)%nat then Err EUnexpectedEOF else
    do n <- idx p 9; Ok (firstn (N.to_nat n) (skipn 10 p))
  else if x =? 16 then
    if (len p <=? 21)%nat then Err EUnexpectedEOF else
    do n <- idx p 21; Ok (firstn (N.to_nat n) (skipn 22 p))
  else Err EMalformed).

(** ** Cause *)
(** gtpv2/ie/cause.go:13-25 NewCause; an offending IE is given by its type *)
Definition new_cause (cause pce bce cs : N) (offending : option N) : ie2 :=
  let p := [cause; N.lor (N.lor (N.land (u8 (N.shiftl pce 2)) 4) (N.land (u8 (N.shiftl bce 1)) 2)) (N.land cs 1)] in
  match offending with
  | None => new2 g 2 0 p
  | Some t => set_length2 g (IE2 2 2 0 (p ++ [t; 0; 0; 0]) [])
  end.
(** cause.go:28-47 Cause *)
Definition acc_cause : ie2 -> res N := via_context 2 (value_u8 g).
(** cause.go:57-80 CauseFlags: for a BearerContext the *cause value* of the child *)
Definition acc_cause_flags (i : ie2) : res N :=
  if i2_type i =? 2 then
    if (len (i2_payload i) <? 2)%nat then Err EUnexpectedEOF else idx (i2_payload i) 1
  else acc_cause i.
Definition flag_of (r : res N) (k : N) : bool := match r with Ok v => hasbit k v | _ => false end.
(** cause.go:90-117 HasCS, HasBCE, HasPCE *)
Definition has_cs (i : ie2) : bool := flag_of (acc_cause_flags i) 1.
Definition has_bce (i : ie2) : bool := flag_of (acc_cause_flags i) 0.
Definition has_pce (i : ie2) : bool := flag_of (acc_cause_flags i) 2.
Definition cause_bit (k : N) (i : ie2) : bool :=
  (i2_type i =? 2) && negb (len (i2_payload i) <? 2)%nat &&
  match i2_payload i with _ :: x :: _ => N.land (N.shiftr x k) 1 =? 1 | _ => false end.
(** cause.go:120-165 IsRemoteCause, IsBearerContextIEError, IsPDNConnectionIEError *)
Definition is_remote_cause : ie2 -> bool := cause_bit 2.
Definition is_bearer_context_ie_error : ie2 -> bool := cause_bit 1.
Definition is_pdn_connection_ie_error : ie2 -> bool := cause_bit 0.
(** cause.go:170-180 OffendingIE *)
Definition acc_offending : ie2 -> res ie2 := typed 2 (fun i =>
  if (len (i2_payload i) <? 6)%nat then Err EUnexpectedEOF else
  do s <- slice (i2_payload i) 2 6; parse2 g s).

(** ** QoS *)
(** gtpv2/ie/ambr.go:13-127 *)
Definition new_ambr (up down : N) : res (option ie2) := new_or_nil 72
  (do b <- on_slice (zeros 8) 0 4 (put32 up); on_slice b 4 8 (put32 down)).
Definition ambr_parse (b : bytes) : res (N * N) :=
  if (len b <? 8)%nat then Err EUnexpectedEOF else
  do s <- slice b 0 4; do u <- be32 s; do s <- slice b 4 8; do d <- be32 s; Ok (u, d).
Definition acc_ambr : ie2 -> res (N * N) := typed 72 (fun i => ambr_parse (i2_payload i)).
Definition acc_ambr_up : ie2 -> res N := typed 72 (fun i =>
  if (len (i2_payload i) <? 4)%nat then Err EUnexpectedEOF else
  do s <- slice (i2_payload i) 0 4; be32 s).
Definition acc_ambr_down : ie2 -> res N := typed 72 (fun i =>
  if (len (i2_payload i) <? 8)%nat then Err EUnexpectedEOF else
  do s <- slice (i2_payload i) 4 8; be32 s).

(** the ARP octet, bearer-qos.go:60 and arp.go:10 *)
Definition arp_octet (pci pl pvi : N) : N :=
  N.lor (N.lor (N.land (u8 (N.shiftl pci 6)) 64) (N.land (u8 (N.shiftl pl 2)) 60)) (N.land pvi 1).
(** gtpv2/ie/arp.go:8-40 *)
Definition new_arp (pci pl pvi : N) : ie2 := new2 g 155 0 [arp_octet pci pl pvi].
Definition acc_arp : ie2 -> res N := typed 155 (value_u8 g).
Definition has_pvi (i : ie2) : bool := flag_of (acc_arp i) 0.
Definition has_pci (i : ie2) : bool := flag_of (acc_arp i) 6.

(** gtpv2/ie/bearer-qos.go:48-55 BearerQoSFields *)
Record bqos : Type := BQos { bq_arp : N; bq_qci : N; bq_umbr : N; bq_dmbr : N; bq_ugbr : N; bq_dgbr : N }.
(** bearer-qos.go:80-94 MarshalTo, 70-77 Marshal *)
Definition bqos_mto (f : bqos) (b : bytes) : res bytes :=
  if (len b <? 22)%nat then Err EUnexpectedEOF else
  do b <- set_idx b 0 (bq_arp f);
  do b <- set_idx b 1 (bq_qci f);
  do b <- copy_at b 2 7 (uint64to40 (bq_umbr f));
  do b <- copy_at b 7 12 (uint64to40 (bq_dmbr f));
  do b <- copy_at b 12 17 (uint64to40 (bq_ugbr f));
  copy_at b 17 22 (uint64to40 (bq_dgbr f)).
Definition bqos_marshal (f : bqos) : res bytes := bqos_mto f (zeros 22).
(** bearer-qos.go:97-121 Parse / UnmarshalBinary *)
Definition bqos_parse (b : bytes) : res bqos :=
  if (len b <? 22)%nat then Err EUnexpectedEOF else
  do a <- idx b 0; do q <- idx b 1;
  do s1 <- slice b 2 7; do s2 <- slice b 7 12; do s3 <- slice b 12 17; do s4 <- slice b 17 22;
  Ok (BQos a q (uint40to64 s1) (uint40to64 s2) (uint40to64 s3) (uint40to64 s4)).
(** bearer-qos.go:15-23 NewBearerQoS *)
Definition new_bqos (pci pl pvi qci umbr dmbr ugbr dgbr : N) : res (option ie2) :=
  new_or_nil 80 (bqos_marshal (BQos (arp_octet pci pl pvi) qci umbr dmbr ugbr dgbr)).
(** bearer-qos.go:26-45 BearerQoS *)
Definition acc_bqos : ie2 -> res bqos := via_context 80 (fun i => bqos_parse (i2_payload i)).
(** arp.go:43-62 PriorityLevel *)
Definition acc_priority_level (i : ie2) : res N :=
  if i2_type i =? 155 then do v <- acc_arp i; Ok (N.shiftr (N.land v 60) 2)
  else if i2_type i =? 80 then do v <- acc_bqos i; Ok (N.shiftr (N.land (bq_arp v) 60) 2)
  else Err EInvalidType.

(** gtpv2/ie/flow-qos.go:35-41 FlowQoSFields *)
Record fqos : Type := FQos { fq_qci : N; fq_umbr : N; fq_dmbr : N; fq_ugbr : N; fq_dgbr : N }.
(** flow-qos.go:65-78 MarshalTo *)
Definition fqos_mto (f : fqos) (b : bytes) : res bytes :=
  if (len b <? 21)%nat then Err EUnexpectedEOF else
  do b <- set_idx b 0 (fq_qci f);
  do b <- copy_at b 1 6 (uint64to40 (fq_umbr f));
  do b <- copy_at b 6 11 (uint64to40 (fq_dmbr f));
  do b <- copy_at b 11 16 (uint64to40 (fq_ugbr f));
  copy_at b 16 21 (uint64to40 (fq_dgbr f)).
Definition fqos_marshal (f : fqos) : res bytes := fqos_mto f (zeros 21).
(** flow-qos.go:81-104 Parse / UnmarshalBinary *)
Definition fqos_parse (b : bytes) : res fqos :=
  if (len b <? 21)%nat then Err EUnexpectedEOF else
  do q <- idx b 0;
  do s1 <- slice b 1 6; do s2 <- slice b 6 11; do s3 <- slice b 11 16; do s4 <- slice b 16 21;
  Ok (FQos q (uint40to64 s1) (uint40to64 s2) (uint40to64 s3) (uint40to64 s4)).
(** flow-qos.go:14-32 *)
Definition new_fqos (qci umbr dmbr ugbr dgbr : N) : res (option ie2) :=
  new_or_nil 81 (fqos_marshal (FQos qci umbr dmbr ugbr dgbr)).
Definition acc_fqos : ie2 -> res fqos := typed 81 (fun i => fqos_parse (i2_payload i)).
(** bearer-qos.go:129-141 QCILabel *)
Definition acc_qci (i : ie2) : res N :=
  if i2_type i =? 80 then
    if (len (i2_payload i) <? 2)%nat then Err EUnexpectedEOF else idx (i2_payload i) 1
  else if i2_type i =? 81 then value_u8 g i else Err EInvalidType.
(** the pattern of bearer-qos.go:144-234: [lo,hi) of a BearerQoS payload, [lo',hi') of a
    FlowQoS payload *)
Definition rate (lo hi lo' hi' : nat) (i : ie2) : res N :=
  let p := i2_payload i in
  if i2_type i =? 80 then
    if (len p <? hi)%nat then Err EUnexpectedEOF else do s <- slice p lo hi; Ok (uint40to64 s)
  else if i2_type i =? 81 then
    if (len p <? hi')%nat then Err EUnexpectedEOF else do s <- slice p lo' hi'; Ok (uint40to64 s)
  else Err EUnexpectedEOF.
(** bearer-qos.go:144-159 MBRForUplink, 169-184 MBRForDownlink, 194-209 GBRForUplink,
    219-234 GBRForDownlink *)
Definition acc_umbr : ie2 -> res N := rate 2 7 2 6.
Definition acc_dmbr : ie2 -> res N := rate 7 12 6 11.
Definition acc_ugbr : ie2 -> res N := rate 12 17 11 16.
Definition acc_dgbr : ie2 -> res N := rate 17 22 16 21.

(** ** Flag octets *)
(** gtpv2/ie/bearer-flags.go:8-120 *)
Definition new_bearer_flags (asi vind vb ppc : N) : ie2 := new2 g 97 0
  [N.lor (N.lor (N.lor (N.land (u8 (N.shiftl asi 3)) 8) (N.land (u8 (N.shiftl vind 2)) 4))
                (N.land (u8 (N.shiftl vb 1)) 2)) (N.land ppc 1)].
Definition acc_bearer_flags : ie2 -> res N := via_context 97 (value_u8 g).
Definition has_ppc (i : ie2) : bool := flag_of (acc_bearer_flags i) 0.
Definition has_vb (i : ie2) : bool := flag_of (acc_bearer_flags i) 1.
Definition has_vind (i : ie2) : bool := flag_of (acc_bearer_flags i) 2.
Definition has_asi (i : ie2) : bool := flag_of (acc_bearer_flags i) 3.
(** bearer-flags.go:85-120 [v & mask == 1] *)
Definition masked_is_one (r : res N) (mask : N) : bool :=
  match r with Ok v => N.land v mask =? 1 | _ => false end.
Definition activity_status_indicator (i : ie2) : bool := masked_is_one (acc_bearer_flags i) 8.
Definition vsrvcc (i : ie2) : bool := masked_is_one (acc_bearer_flags i) 4.
Definition voice_bearer (i : ie2) : bool := masked_is_one (acc_bearer_flags i) 2.
Definition prohibit_payload_compression (i : ie2) : bool := masked_is_one (acc_bearer_flags i) 1.
(** gtpv2/ie/mbms-flags.go:8-67 *)
Definition new_mbms_flags (lmri msri : N) : ie2 := new2 g 171 0
  [N.lor (N.land (u8 (N.shiftl lmri 1)) 2) (N.land msri 1)].
Definition acc_mbms_flags : ie2 -> res N := typed 171 (value_u8 g).
Definition has_msri (i : ie2) : bool := flag_of (acc_mbms_flags i) 0.
Definition has_lmri (i : ie2) : bool := flag_of (acc_mbms_flags i) 1.
Definition local_mbms_release (i : ie2) : bool := masked_is_one (acc_mbms_flags i) 2.
Definition mbms_reestablishment (i : ie2) : bool := masked_is_one (acc_mbms_flags i) 1.
(** gtpv2/ie/node-features.go:27-94 HasPRN, HasMABR, HasNTSR, HasCIOT, HasS1UN, HasETH,
    HasMTEDT: bits 0..6 *)
Definition has_node_feature (k : N) (i : ie2) : bool := flag_of (acc_u8 152 i) k.

(** gtpv2/ie/ran-nas-cause.go:13-115 *)
Definition new_ran_nas_cause (ptype ctype : N) (cause : bytes) : res (option ie2) :=
  new_or_nil 172 (
    let b := zeros (1 + len cause) in
    if (len b <? 1)%nat then Err EUnexpectedEOF else
    do b <- set_idx b 0 (N.lor (u8 (N.shiftl (N.land ptype 15) 4)) (N.land ctype 15));
    if (len b <? 1 + len cause)%nat then Err EUnexpectedEOF else copy_from b 1 cause).
Definition ran_nas_parse (b : bytes) : res (N * N * bytes) :=
  if (len b <? 2)%nat then Err EUnexpectedEOF else
  do x <- idx b 0; do c <- slice_from b 1;
  Ok (N.shiftr (N.land x 240) 4, N.land x 15, c).
Definition acc_ran_nas_cause : ie2 -> res (N * N * bytes) :=
  via_context 172 (fun i => ran_nas_parse (i2_payload i)).

(** gtpv2/ie/paging-and-service-information.go:12-132 *)
Record pasi : Type := Pasi { pa_ebi : N; pa_flags : N; pa_ppi : N }.
Definition pasi_mlen (f : pasi) : nat := if hasbit 0 (pa_flags f) then 3%nat else 2%nat.
Definition pasi_mto (f : pasi) (b : bytes) : res bytes :=
  let l := len b in
  if (l <? 2)%nat then Err EUnexpectedEOF else
  do b <- set_idx b 0 (N.land (pa_ebi f) 15);
  do b <- set_idx b 1 (pa_flags f);
  if hasbit 0 (pa_flags f) then
    if (l <? 3)%nat then Err EUnexpectedEOF else set_idx b 2 (N.land (pa_ppi f) 127)
  else Ok b.
Definition new_pasi (ebi flags ppi : N) : res (option ie2) :=
  let f := Pasi (N.land ebi 15) flags (N.land ppi 127) in
  new_or_nil 186 (pasi_mto f (zeros (pasi_mlen f))).
(** 88-104 UnmarshalBinary: Flags is read from b[0] *)
Definition pasi_parse (b : bytes) : res pasi :=
  let l := len b in
  if (l <? 2)%nat then Err EUnexpectedEOF else
  do x <- idx b 0;
  if hasbit 0 x then
    if (l <? 3)%nat then Err EUnexpectedEOF else do y <- idx b 2; Ok (Pasi (N.land x 15) x (N.land y 127))
  else Ok (Pasi (N.land x 15) x 0).
Definition acc_pasi : ie2 -> res pasi := typed 186 (fun i => pasi_parse (i2_payload i)).
Definition acc_ppi : ie2 -> res N := typed 186 (fun i =>
  do f <- pasi_parse (i2_payload i);
  if hasbit 0 (pa_flags f) then Ok (pa_ppi f) else Err EIEValueNotFound).
End G.
