(** Model of the typed IE codecs of gtpv2/ie: subscriber and network identities, timers.
    Strings are byte strings.  No proofs here. *)
From Coq Require Import ZArith SpecFloat.
From Verif Require Import Base Utils V2IE V2Codec.
Open Scope N_scope.
Open Scope list_scope.

Section G.
Context (g : N -> bool).

(** strings.TrimSuffix(s, "f") *)
Definition trim_f (s : bytes) : bytes :=
  match rev s with c :: r => if c =? ch_f then rev r else s | [] => s end.
(** [v, err := f; if err != nil return nil; return New(t, 0, v)] *)
Definition new_digits (t : N) (s : bytes) : res (option ie2) :=
  new_or_nil g t (str_to_swapped s [ch_f]).
(** gtpv2/ie/imsi.go:14-21 NewIMSI, 24-33 IMSI *)
Definition new_imsi (s : bytes) : res (option ie2) := new_digits 1 s.
Definition acc_imsi : ie2 -> res bytes := typed 1 (fun i =>
  if (len (i2_payload i) <? 1)%nat then Err EUnexpectedEOF else swapped_to_str (i2_payload i) true).
(** gtpv2/ie/msisdn.go:15-21 NewMSISDN, 24-34 MSISDN *)
Definition new_msisdn (s : bytes) : res (option ie2) := new_digits 76 s.
Definition digits_trimmed (i : ie2) : res bytes :=
  if (len (i2_payload i) <? 1)%nat then Err EUnexpectedEOF else
  do s <- swapped_to_str (i2_payload i) false; Ok (trim_f s).
Definition acc_msisdn : ie2 -> res bytes := typed 76 digits_trimmed.
(** gtpv2/ie/mei.go:15-21 NewMobileEquipmentIdentity, 25-35 MobileEquipmentIdentity *)
Definition new_mei (s : bytes) : res (option ie2) := new_digits 75 s.
Definition acc_mei : ie2 -> res bytes := typed 75 digits_trimmed.

(** gtpv2/ie/plmn-id.go:14-38, serving-nw.go:14-38 *)
Definition new_plmn (t : N) (mcc mnc : bytes) : res (option ie2) :=
  new_or_nil g t (encode_plmn mcc mnc).
Definition acc_plmn (t : N) : ie2 -> res bytes := typed t (fun i =>
  if (len (i2_payload i) <? 3)%nat then Err EUnexpectedEOF else
  do r <- decode_plmn (i2_payload i); Ok (fst r ++ snd r)).
Definition new_plmn_id := new_plmn 120.
Definition acc_plmn_id := acc_plmn 120.
Definition new_serving_network := new_plmn 83.
Definition acc_serving_network := acc_plmn 83.

(** gtpv2/ie/global-cn-id.go:15-26 NewGlobalCNID, 29-39 CNID *)
Definition new_global_cn_id (mcc mnc : bytes) (cnid : N) : res (option ie2) :=
  match encode_plmn mcc mnc with
  | Ok plmn =>
      do b <- copy_at (zeros 5) 0 3 plmn;
      do b <- on_slice b 3 5 (put16 (N.land cnid 4095));
      Ok (Some (IE2 89 5 0 b []))
  | Err _ => Ok None
  | Panic => Panic
  end.
Definition acc_cnid (i : ie2) : res N :=
  if (len (i2_payload i) <? 5)%nat then Err EUnexpectedEOF else
  if i2_type i =? 89 then do s <- slice (i2_payload i) 3 5; be16 s else Err EInvalidType.

(** gtpv2/ie/guti.go:36-41 GUTIFields *)
Record guti : Type := Guti { gu_mcc : bytes; gu_mnc : bytes; gu_group : N; gu_code : N; gu_tmsi : N }.
(** guti.go:65-85 MarshalTo: an error of EncodePLMN is swallowed *)
Definition guti_mto (f : guti) (b : bytes) : res bytes :=
  if (len b <? 3)%nat then Err EUnexpectedEOF else
  match encode_plmn (gu_mcc f) (gu_mnc f) with
  | Panic => Panic
  | Err _ => Ok b
  | Ok plmn =>
      let l := len b in
      do b <- copy_at b 0 3 plmn;
      if (l <? 10)%nat then Err EUnexpectedEOF else
      do b <- on_slice b 3 5 (put16 (gu_group f));
      do b <- set_idx b 5 (gu_code f);
      on_slice b 6 10 (put32 (gu_tmsi f))
  end.
(** guti.go:15-23 NewGUTI, 55-62 Marshal *)
Definition new_guti (mcc mnc : bytes) (group code tmsi : N) : res (option ie2) :=
  new_or_nil g 117 (guti_mto (Guti mcc mnc group code tmsi) (zeros 10)).
(** guti.go:88-119 ParseGUTIFields / UnmarshalBinary.  DecodePLMN is given b[1:3] and slices
    it to [1:3], which reaches into the spare capacity of the buffer: [spare] is what follows
    the payload there. *)
Definition guti_parse (spare b : bytes) : res guti :=
  if (len b <? 3)%nat then Err EUnexpectedEOF else
  let full := b ++ spare in
  do s1 <- slice full 1 3; do mcc <- decode_mcc s1;
  do s2 <- slice full 2 4; do mnc <- decode_mnc s2;
  if (len b <? 10)%nat then Err EUnexpectedEOF else
  do s <- slice b 3 5; do gr <- be16 s;
  do c <- idx b 5;
  do s <- slice b 6 10; do t <- be32 s;
  Ok (Guti mcc mnc gr c t).
Definition acc_guti (spare : bytes) : ie2 -> res guti := typed 117 (fun i => guti_parse spare (i2_payload i)).
(** guti.go:127-137 MMEGroupID, 147-157 MMECode, 167-177 MTMSI *)
Definition acc_mme_group : ie2 -> res N := typed 117 (fun i =>
  if (len (i2_payload i) <? 5)%nat then Err EUnexpectedEOF else do s <- slice (i2_payload i) 3 5; be16 s).
Definition acc_mme_code : ie2 -> res N := typed 117 (fun i =>
  if (len (i2_payload i) <? 6)%nat then Err EUnexpectedEOF else idx (i2_payload i) 5).
Definition acc_mtmsi : ie2 -> res N := typed 117 (fun i =>
  if (len (i2_payload i) <? 10)%nat then Err EUnexpectedEOF else do s <- slice (i2_payload i) 6 10; be32 s).

(** gtpv2/ie/uci.go:36-41 UserCSGInformationFields *)
Record uci : Type := Uci { uc_mcc : bytes; uc_mnc : bytes; uc_csg : N; uc_mode : N; uc_flags : N }.
(** uci.go:65-85 MarshalTo *)
Definition uci_mto (f : uci) (b : bytes) : res bytes :=
  let l := len b in
  if (l <? 3)%nat then Err EUnexpectedEOF else
  do plmn <- encode_plmn (uc_mcc f) (uc_mnc f);
  do b <- copy_at b 0 3 plmn;
  if (l <? 8)%nat then Err EUnexpectedEOF else
  do b <- on_slice b 3 7 (put32 (N.land (uc_csg f) 134217727));
  set_idx b 7 (N.lor (u8 (N.shiftl (N.land (uc_mode f) 3) 6)) (uc_flags f)).
(** uci.go:15-23 NewUserCSGInformation, 44-52, 55-62 *)
Definition new_uci (mcc mnc : bytes) (csg mode lcsg cmi : N) : res (option ie2) :=
  new_or_nil g 145 (uci_mto (Uci mcc mnc csg mode
    (N.lor (N.land (u8 (N.shiftl lcsg 1)) 2) (N.land cmi 1))) (zeros 8)).
(** uci.go:88-119 Parse / UnmarshalBinary *)
Definition uci_parse (b : bytes) : res uci :=
  let l := len b in
  if (l <? 3)%nat then Err EUnexpectedEOF else
  do s <- slice b 0 3; do p <- decode_plmn s;
  if (l <=? 7)%nat then Err EUnexpectedEOF else
  do s <- slice b 3 7; do c <- be32 s;
  do x <- idx b 7;
  Ok (Uci (fst p) (snd p) (N.land c 134217727) (N.shiftr x 6) (N.land x 3)).
Definition acc_uci : ie2 -> res uci := typed 145 (fun i => uci_parse (i2_payload i)).
(** uci.go:127-137 AccessMode *)
Definition acc_access_mode : ie2 -> res N := typed 145 (fun i =>
  if (len (i2_payload i) <? 8)%nat then Err EUnexpectedEOF else
  do x <- idx (i2_payload i) 7; Ok (N.shiftr x 6)).

(** gtpv2/ie/trace-reference.go:14-104 *)
Definition new_trace_reference (mcc mnc : bytes) (tid : N) : res (option ie2) := new_or_nil g 115
  (do plmn <- encode_plmn mcc mnc;
   do b <- copy_at (zeros 6) 0 3 plmn;
   copy_at b 3 6 (uint32to24 tid)).
Definition trace_reference_parse (b : bytes) : res (bytes * bytes * N) :=
  let l := len b in
  if (l <? 3)%nat then Err EUnexpectedEOF else
  do s <- slice b 0 3; do p <- decode_plmn s;
  if (l <? 6)%nat then Err EUnexpectedEOF else
  do s <- slice b 3 6; Ok (fst p, snd p, uint24to32 s).
(** trace-reference.go:107-117 TraceID *)
Definition acc_trace_id (i : ie2) : res N :=
  if (i2_type i =? 115) || (i2_type i =? 96) then
    if (len (i2_payload i) <? 6)%nat then Err EUnexpectedEOF else
    do s <- slice (i2_payload i) 3 6; Ok (uint24to32 s)
  else Err EInvalidType.

(** gtpv2/ie/mcc-mnc.go:15-60 MCC, 70-115 MNC, without the ULI branch (that is in V2Uli.v) *)
Definition acc_mcc_mnc (i : ie2) : res (bytes * bytes) :=
  if (len (i2_payload i) <? 3)%nat then Err EUnexpectedEOF else
  if (i2_type i =? 83) || (i2_type i =? 120) then decode_plmn (i2_payload i)
  else if (i2_type i =? 89) || (i2_type i =? 115) || (i2_type i =? 117) || (i2_type i =? 145) then
    do s <- slice_to (i2_payload i) 3; decode_plmn s
  else Err EInvalidType.

(** gtpv2/ie/fq-csid.go:43-48 FullyQualifiedCSIDFields *)
Record fqcsid : Type := FqCsid { fc_type : N; fc_num : N; fc_node : bytes; fc_csids : list N }.
(** the node identifier as the caller gives it: what net.ParseIP returned, or the string that
    is not an address *)
Inductive node_id : Type := NodeIP (ip : bytes) | NodeHex (s : bytes).
(** fq-csid.go:51-74 NewFullyQualifiedCSIDFields; None is a nil result *)
Definition new_fqcsid_fields (n : node_id) (csids : list N) : option fqcsid :=
  let num := u8 (N.of_nat (List.length csids)) in
  match n with
  | NodeHex s => match hex_decode s with Ok b => Some (FqCsid 2 num b csids) | _ => None end
  | NodeIP ip => match to4 (Some ip) with
                 | Some v => Some (FqCsid 0 num v csids)
                 | None => Some (FqCsid 1 num ip csids)
                 end
  end.
(** fq-csid.go:159-173 MarshalLen *)
Definition fqcsid_mlen (f : fqcsid) : nat :=
  (1 + (if ((fc_type f =? 0) || (fc_type f =? 2))%N then 4 else if (fc_type f =? 1)%N then 16 else 0)
   + List.length (fc_csids f) * 2)%nat.
(** fq-csid.go:102-107 the loop over the CSIDs *)
Fixpoint csids_mto (l : nat) (csids : list N) (off : nat) (b : bytes) : res bytes :=
  match csids with
  | [] => Ok b
  | c :: r => if (l <? off + 2)%nat then Ok b
              else do b <- on_slice b off (off + 2) (put16 c); csids_mto l r (off + 2) b
  end.
(** fq-csid.go:87-110 MarshalTo *)
Definition fqcsid_mto (f : fqcsid) (b : bytes) : res bytes :=
  let l := len b in
  if (l <? 1)%nat then Err EUnexpectedEOF else
  do b <- set_idx b 0 (N.lor (N.land (u8 (N.shiftl (fc_type f) 4)) 240) (N.land (fc_num f) 15));
  let n := len (fc_node f) in
  if (l <? 1 + n)%nat then Err EUnexpectedEOF else
  do b <- copy_at b 1 (1 + n) (fc_node f);
  csids_mto l (fc_csids f) (1 + n) b.
(** fq-csid.go:22-30 NewFullyQualifiedCSID: Marshal of a nil pointer dereferences it *)
Definition new_fqcsid (n : node_id) (csids : list N) : res (option ie2) :=
  match new_fqcsid_fields n csids with
  | None => Panic
  | Some f => new_or_nil g 132 (fqcsid_mto f (zeros (fqcsid_mlen f)))
  end.
(** fq-csid.go:150-153, 248-252: pairs of octets until fewer than two are left *)
Fixpoint csids_of (b : bytes) : list N :=
  match b with
  | x :: y :: r => (x * 256 + y) :: csids_of r
  | _ => []
  end.
(** fq-csid.go:113-156 Parse / UnmarshalBinary *)
Definition fqcsid_parse (b : bytes) : res fqcsid :=
  let l := len b in
  if (l <? 1)%nat then Err EUnexpectedEOF else
  do x <- idx b 0;
  let t := N.land (N.shiftr x 4) 15 in
  let n := N.land x 15 in
  if (t =? 0) || (t =? 2) then
    if (l <? 5)%nat then Err EUnexpectedEOF else
    do a <- slice b 1 5; do r <- slice_from b 5; Ok (FqCsid t n a (csids_of r))
  else if t =? 1 then
    if (l <? 17)%nat then Err EUnexpectedEOF else
    do a <- slice b 1 17; do r <- slice_from b 17; Ok (FqCsid t n a (csids_of r))
  else Err EMalformed.
Definition acc_fqcsid : ie2 -> res fqcsid := typed 132 (fun i => fqcsid_parse (i2_payload i)).
(** fq-csid.go:176-187 NodeIDType *)
Definition acc_node_id_type (i : ie2) : res N :=
  if (len (i2_payload i) <? 1)%nat then Err EUnexpectedEOF else
  if i2_type i =? 132 then do x <- idx (i2_payload i) 0; Ok (N.land (N.shiftr x 4) 15)
  else Err EInvalidType.
(** fq-csid.go:197-221 NodeID *)
Definition acc_node_id (i : ie2) : res bytes :=
  let p := i2_payload i in
  if (len p <? 1)%nat then Err EUnexpectedEOF else
  if i2_type i =? 132 then
    do x <- idx p 0;
    let t := N.land (N.shiftr x 4) 15 in
    if (t =? 0) || (t =? 2) then if (len p <? 6)%nat then Err EUnexpectedEOF else slice p 1 5
    else if t =? 1 then if (len p <? 18)%nat then Err EUnexpectedEOF else slice p 1 17
    else Err EMalformed
  else Err EInvalidType.
(** fq-csid.go:231-257 CSIDs *)
Definition acc_csids (i : ie2) : res (list N) :=
  let p := i2_payload i in
  if (len p <? 1)%nat then Err EUnexpectedEOF else
  if i2_type i =? 132 then
    do x <- idx p 0;
    let t := N.land (N.shiftr x 4) 15 in
    if (t =? 0) || (t =? 2) then Ok (csids_of (skipn 5 p))
    else if t =? 1 then Ok (csids_of (skipn 17 p))
    else Err EMalformed
  else Err EInvalidType.

(** ** Timers.  A time.Duration is a Z, in nanoseconds. *)
Open Scope Z_scope.
Definition msec : Z := 1000000.
Definition sec : Z := 1000000000.
Definition minute : Z := 60 * sec.
Definition hour : Z := 60 * minute.
(** conversion of an integer to uint8 *)
Definition z8 (z : Z) : N := Z.to_N (z mod 256).

(** float64 arithmetic (IEEE 754 binary64, round to nearest even), as specified by the
    standard library's SpecFloat *)
Definition f64 (z : Z) : spec_float := binary_normalize 53 1024 z 0 false.
Definition fadd := SFadd 53 1024.
Definition fmul := SFmul 53 1024.
Definition fdiv := SFdiv 53 1024.
(** truncation of a finite float towards zero; infinities and NaN, whose conversion Go leaves
    to the implementation, give 0 here *)
Definition ftrunc (f : spec_float) : Z :=
  match f with
  | S754_finite s m e =>
      let v := if 0 <=? e then Zpos m * 2 ^ e else Zpos m / 2 ^ (- e) in
      if s then - v else v
  | _ => 0
  end.
Definition fneg (f : spec_float) : bool :=
  match f with S754_finite s _ _ => s | S754_infinity s => s | _ => false end.
Definition fabs (f : spec_float) : spec_float :=
  match f with S754_finite _ m e => S754_finite false m e | S754_infinity _ => S754_infinity false
             | S754_zero _ => S754_zero false | S754_nan => S754_nan end.
(** time.Duration.Seconds and Minutes *)
Definition seconds (d : Z) : spec_float :=
  fadd (f64 (Z.quot d sec)) (fdiv (f64 (Z.rem d sec)) (f64 sec)).
Definition minutes (d : Z) : spec_float :=
  fadd (f64 (Z.quot d minute)) (fdiv (f64 (Z.rem d minute)) (f64 minute)).

(** gtpv2/ie/delay-value.go:13-15 NewDelayValue, 20-22 NewDelayValueRaw.  The conversion of a
    float outside 0..255 to uint8 is implementation-defined in Go; here it wraps. *)
Definition new_delay_value (d : Z) : ie2 :=
  new_uint8 g 92 (z8 (ftrunc (fdiv (fmul (seconds d) (f64 1000)) (f64 50)))).
Definition new_delay_value_raw (v : N) : ie2 := new_uint8 g 92 v.
(** delay-value.go:28-37 DelayValue *)
Definition acc_delay_value : ie2 -> res Z := typed 92 (fun i =>
  if (len (i2_payload i) <? 1)%nat then Err EUnexpectedEOF else
  do x <- idx (i2_payload i) 0; Ok (Z.of_N (N.div x 50) * msec)).

(** gtpv2/ie/epc-timer.go:15-53 NewEPCTimer *)
Definition epc_timer_octet (d : Z) : N :=
  let '(unit, value) :=
    if Z.rem d (10 * hour) =? 0 then (128%N, z8 (Z.quot d (10 * hour)))
    else if Z.rem d hour =? 0 then (96%N, z8 (Z.quot d hour))
    else if Z.rem d (10 * minute) =? 0 then (64%N, z8 (Z.quot d (10 * minute)))
    else if Z.rem d minute =? 0 then (32%N, z8 (Z.quot d minute))
    else if Z.rem d (2 * sec) =? 0 then (0%N, z8 (Z.quot d (2 * sec)))
    else (224%N, 0%N) in
  u8 (unit + N.land value 31).
Definition new_epc_timer (d : Z) : ie2 := new_uint8 g 156 (epc_timer_octet d).
(** epc-timer.go:76-106 Timer, 64-66 EPCTimer *)
Definition max_int64 : Z := 9223372036854775807.
Definition epc_timer_value (x : N) : Z :=
  let v := Z.of_N (N.land x 31) in
  let u := N.shiftr (N.land x 224) 5 in
  if (u =? 7)%N then max_int64
  else if (u =? 4)%N then v * 10 * hour
  else if (u =? 3)%N then v * hour
  else if (u =? 2)%N then v * 10 * minute
  else if (u =? 1)%N then v * minute
  else if (u =? 0)%N then v * 2 * sec
  else 0.
Definition acc_timer (i : ie2) : res Z :=
  if (len (i2_payload i) <? 1)%nat then Err EUnexpectedEOF else
  if (i2_type i =? 156)%N then do x <- idx (i2_payload i) 0; Ok (epc_timer_value x)
  else if (i2_type i =? 180)%N then Err (EOther 1)
  else Err EInvalidType.

(** gtpv2/ie/throttling.go:41-78 NewThrottlingFields: the unit *)
Definition throttling_unit (d : Z) : N :=
  if Z.rem d (10 * hour) =? 0 then 4%N
  else if Z.rem d hour =? 0 then 3%N
  else if Z.rem d (10 * minute) =? 0 then 2%N
  else if Z.rem d minute =? 0 then 1%N
  else if Z.rem d (2 * sec) =? 0 then 0%N
  else 224%N.
(** throttling.go:91-117 MarshalTo: the octet *)
Definition throttling_octet (u : N) (d : Z) : N :=
  let value :=
    if (u =? 4)%N then z8 (Z.quot d (10 * hour))
    else if (u =? 3)%N then z8 (Z.quot d hour)
    else if (u =? 2)%N then z8 (Z.quot d (10 * minute))
    else if (u =? 1)%N then z8 (Z.quot d minute)
    else if (u =? 0)%N then z8 (Z.quot d (2 * sec))
    else 0%N in
  N.lor (N.land (u8 (N.shiftl u 5)) 224) (N.land value 31).
(** throttling.go:13-21 NewThrottling *)
Definition new_throttling (d : Z) (factor : N) : res (option ie2) :=
  new_or_nil g 154
    (do b <- set_idx (zeros 2) 0 (throttling_octet (throttling_unit d) d); set_idx b 1 factor).
(** throttling.go:120-156 Parse / UnmarshalBinary: unit, delay, factor *)
Definition throttling_parse (b : bytes) : res (N * Z * N) :=
  if (len b <? 2)%nat then Err EUnexpectedEOF else
  do x <- idx b 0; do f <- idx b 1;
  let u := N.shiftr (N.land x 224) 5 in
  let v := Z.of_N (N.land x 31) in
  let d := if (u =? 4)%N then v * (10 * hour)
           else if (u =? 3)%N then v * hour
           else if (u =? 2)%N then v * (10 * minute)
           else if (u =? 1)%N then v * minute
           else if (u =? 0)%N then v * (2 * sec)
           else 0 in
  Ok (u, d, f).
Definition acc_throttling : ie2 -> res (N * Z * N) := typed 154 (fun i => throttling_parse (i2_payload i)).

(** gtpv2/ie/ue-timezone.go:14-26 NewUETimeZone *)
Definition tz_octet (tz : Z) : N :=
  let m := fdiv (minutes tz) (f64 15) in
  let a := ftrunc (fabs m) in
  let h := z8 (Z.lor (Z.shiftl (Z.rem a 10) 4) (Z.quot a 10)) in
  if fneg m then N.lor h 8 else h.
Definition new_ue_time_zone (tz : Z) (dst : N) : ie2 := new2 g 114 0 [tz_octet tz; N.land dst 3].
(** ue-timezone.go:29-44 TimeZone: the sum is in uint8 *)
Definition tz_value (x : N) : Z :=
  let u := N.land x 247 in
  let dec := Z.of_N (u8 (N.shiftr u 4 + u8 (N.land u 15 * 10))) in
  let dec := if (N.shiftr (N.land x 8) 3 =? 1)%N then - dec else dec in
  dec * 15 * minute.
Definition acc_time_zone : ie2 -> res Z := typed 114 (fun i =>
  if (len (i2_payload i) <? 1)%nat then Err EUnexpectedEOF else
  do x <- idx (i2_payload i) 0; Ok (tz_value x)).
(** ue-timezone.go:54-63 DaylightSaving *)
Definition acc_dst : ie2 -> res N := typed 114 (fun i =>
  if (len (i2_payload i) <? 2)%nat then Err EUnexpectedEOF else idx (i2_payload i) 1).

(** gtpv2/ie/uli-timestamp.go:14-17 NewULITimestamp.  The argument is what time.Time.Sub
    returned: the nanoseconds since 1900-01-01, saturated to int64. *)
Definition new_uli_timestamp (ns : Z) : ie2 :=
  new_uint32 g 170 (Z.to_N ((ns mod 2 ^ 64) / 1000000000 mod 2 ^ 32)).
(** uli-timestamp.go:20-31 Timestamp: the result is in Unix seconds *)
Definition acc_timestamp (i : ie2) : res Z :=
  if (len (i2_payload i) <? 4)%nat then Err EUnexpectedEOF else
  if ((i2_type i =? 170) || (i2_type i =? 179))%N then
    do s <- slice (i2_payload i) 0 4; do v <- be32 s;
    Ok ((Z.of_N v - 2208988800) mod 2 ^ 32)
  else Err EInvalidType.
End G.
