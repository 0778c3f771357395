(** Model of gtpv2/ie/tft.go, bearer-tft.go and tad.go.  No proofs here. *)
From Coq Require Import String.
From Verif Require Import Base Utils V2IE V2Codec.
Open Scope string_scope.
Open Scope N_scope.
Open Scope list_scope.

(** tft.go:356-359 TFTPFComponent, 853-857 TFTParameter, 216-222 TFTPacketFilter, 39-44
    TrafficFlowTemplate.  The elements of the lists are non-nil, as NewTrafficFlowTemplate
    makes them for filters and parameters (a nil component panics in the code). *)
Record comp : Type := Comp { co_type : N; co_contents : bytes }.
Record param : Type := Param { pm_id : N; pm_length : N; pm_contents : bytes }.
Record pfilter : Type := PFilter {
  pf_dir : N; pf_id : N; pf_prec : N; pf_length : N; pf_comps : list comp }.
Record tft : Type := Tft {
  tf_op : N; tf_filters : list pfilter; tf_ids : bytes; tf_params : list param }.

(** tft.go:841-843 MarshalLen, 759-768 MarshalTo *)
Definition comp_mlen (c : comp) : nat := (1 + len (co_contents c))%nat.
Definition comp_mto (c : comp) (b : bytes) : res bytes :=
  if (len b <? 1 + len (co_contents c))%nat then Err EUnexpectedEOF else
  do b <- set_idx b 0 (co_type c);
  copy_at b 1 (1 + len (co_contents c)) (co_contents c).
(** tft.go:803-831: the size of the contents of each component type; 0 for an unknown one *)
Definition comp_size (t : N) : nat :=
  if (t =? 16) || (t =? 17) then 8
  else if t =? 32 then 32
  else if (t =? 33) || (t =? 35) then 17
  else if t =? 48 then 1
  else if (t =? 64) || (t =? 80) then 2
  else if (t =? 65) || (t =? 81) then 4
  else if t =? 96 then 4
  else if t =? 112 then 2
  else if t =? 128 then 3
  else if (t =? 129) || (t =? 130) then 6
  else if (t =? 131) || (t =? 132) then 2
  else if (t =? 133) || (t =? 134) then 1
  else if t =? 135 then 2
  else 0%nat.
(** tft.go:795-838 UnmarshalBinary, 771-778 Parse *)
Definition comp_parse (b : bytes) : res comp :=
  if (len b <? 1)%nat then Err EUnexpectedEOF else
  do t <- idx b 0;
  let n := comp_size t in
  if (len b <? 1 + n)%nat then Err EUnexpectedEOF else
  do c <- slice b 1 (1 + n); Ok (Comp t c).
(** tft.go:781-792 ParseMultiTFTPFComponent; the fuel is the length of the buffer, every
    round consumes at least one byte *)
Fixpoint comps_parse_fuel (fuel : nat) (b : bytes) : res (list comp) :=
  match fuel with
  | O => match b with [] => Ok [] | _ => Panic end
  | S fuel =>
      match b with
      | [] => Ok []
      | _ => do c <- comp_parse b;
             do b <- slice_from b (comp_mlen c);
             do r <- comps_parse_fuel fuel b; Ok (c :: r)
      end
  end.
Definition comps_parse (b : bytes) : res (list comp) := comps_parse_fuel (len b) b.

(** tft.go:311-318 SetLength, 321-329 MarshalLen *)
Definition comps_len (cs : list comp) : nat := fold_right (fun c n => comp_mlen c + n)%nat 0%nat cs.
Definition filter_mlen (p : pfilter) : nat := (3 + comps_len (pf_comps p))%nat.
(** tft.go:225-235 NewTFTPacketFilter *)
Definition new_filter (dir id prec : N) (cs : list comp) : pfilter :=
  PFilter dir id prec (u8 (N.of_nat (comps_len cs))) cs.
(** tft.go:259-269 the loop over the components *)
Fixpoint comps_mto (cs : list comp) (off : nat) (b : bytes) : res bytes :=
  match cs with
  | [] => Ok b
  | c :: r =>
      let n := comp_mlen c in
      if (len b <? off + n)%nat then Err EUnexpectedEOF else
      do b <- on_slice b off (off + n) (comp_mto c);
      comps_mto r (off + n) b
  end.
(** tft.go:248-272 MarshalTo *)
Definition filter_mto (p : pfilter) (b : bytes) : res bytes :=
  if (len b <? 3)%nat then Err EUnexpectedEOF else
  do b <- set_idx b 0 (N.lor (u8 (N.shiftl (N.land (pf_dir p) 3) 4)) (N.land (pf_id p) 15));
  do b <- set_idx b 1 (pf_prec p);
  do b <- set_idx b 2 (pf_length p);
  comps_mto (pf_comps p) 3 b.
(** tft.go:275-308 Parse / UnmarshalBinary *)
Definition filter_parse (b : bytes) : res pfilter :=
  let l := len b in
  if (l <? 3)%nat then Err EUnexpectedEOF else
  do x <- idx b 0; do prec <- idx b 1; do ln <- idx b 2;
  let n := (3 + N.to_nat ln)%nat in
  if (l <? n)%nat then Err EUnexpectedEOF else
  do s <- slice b 3 n; do cs <- comps_parse s;
  Ok (PFilter (N.land (N.shiftr x 4) 3) (N.land x 15) prec ln cs).

(** tft.go:860-866 NewTFTParameter, 944-946 MarshalLen, 879-895 MarshalTo *)
Definition new_param (id : N) (c : bytes) : param := Param id (u8 (N.of_nat (len c))) c.
Definition param_mlen (p : param) : nat := (2 + len (pm_contents p))%nat.
Definition param_mto (p : param) (b : bytes) : res bytes :=
  let l := len b in
  if (l <? 2)%nat then Err EUnexpectedEOF else
  do b <- set_idx b 0 (pm_id p);
  do b <- set_idx b 1 (pm_length p);
  if (l <? 2 + len (pm_contents p))%nat then Err EUnexpectedEOF else
  copy_at b 2 (2 + len (pm_contents p)) (pm_contents p).
(** tft.go:922-936 UnmarshalBinary, 898-905 Parse *)
Definition param_parse (b : bytes) : res param :=
  let l := len b in
  if (l <? 2)%nat then Err EUnexpectedEOF else
  do id <- idx b 0; do ln <- idx b 1;
  if (l <? 2 + N.to_nat ln)%nat then Err EUnexpectedEOF else
  do c <- slice b 2 (2 + N.to_nat ln); Ok (Param id ln c).
(** tft.go:908-919 ParseMultiTFTParameters *)
Fixpoint params_parse_fuel (fuel : nat) (b : bytes) : res (list param) :=
  match fuel with
  | O => match b with [] => Ok [] | _ => Panic end
  | S fuel =>
      match b with
      | [] => Ok []
      | _ => do p <- param_parse b;
             do b <- slice_from b (param_mlen p);
             do r <- params_parse_fuel fuel b; Ok (p :: r)
      end
  end.
Definition params_parse (b : bytes) : res (list param) := params_parse_fuel (len b) b.

(** tft.go:47-68 NewTrafficFlowTemplate: nil elements are dropped *)
Fixpoint somes {A} (l : list (option A)) : list A :=
  match l with [] => [] | Some x :: r => x :: somes r | None :: r => somes r end.
Definition new_tft (op : N) (fs : list (option pfilter)) (ids : bytes) (ps : list (option param)) : tft :=
  Tft op (somes fs) ids (somes ps).
(** tft.go:185-205 MarshalLen *)
Definition filters_len (fs : list pfilter) : nat := fold_right (fun f n => filter_mlen f + n)%nat 0%nat fs.
Definition params_len (ps : list param) : nat := fold_right (fun p n => param_mlen p + n)%nat 0%nat ps.
Definition tft_mlen (f : tft) : nat :=
  (1 + filters_len (tf_filters f) + len (tf_ids f) + params_len (tf_params f))%nat.
(** tft.go:102-110, 116-125: the loops; [b[offset:]] is passed down *)
Fixpoint filters_mto (fs : list pfilter) (off : nat) (b : bytes) : res (bytes * nat) :=
  match fs with
  | [] => Ok (b, off)
  | f :: r => do b <- on_slice_from b off (filter_mto f); filters_mto r (off + filter_mlen f) b
  end.
Fixpoint params_mto (ps : list param) (off : nat) (b : bytes) : res bytes :=
  match ps with
  | [] => Ok b
  | p :: r => do b <- on_slice_from b off (param_mto p); params_mto r (off + param_mlen p) b
  end.
(** tft.go:99-101: operations 1, 3 and 4 carry packet filters *)
Definition has_filters (op : N) : bool := (op =? 1) || (op =? 3) || (op =? 4).
(** tft.go:81-128 MarshalTo.  The E bit is the lowest bit of the number of parameters. *)
Definition tft_mto (f : tft) (b : bytes) : res bytes :=
  if (len b <? 1)%nat then Err EUnexpectedEOF else
  let op := u8 (N.shiftl (N.land (tf_op f) 7) 5) in
  let e := u8 (N.shiftl (N.land (N.of_nat (List.length (tf_params f))) 1) 4) in
  let pf := if tf_op f =? 5 then len (tf_ids f) else List.length (tf_filters f) in
  do b <- set_idx b 0 (N.lor (N.lor op e) (N.land (N.of_nat pf) 15));
  do st <- (if has_filters (tf_op f) then filters_mto (tf_filters f) 1 b
            else if tf_op f =? 5 then do b <- copy_at b 1 (1 + pf) (tf_ids f); Ok (b, (1 + pf)%nat)
            else Ok (b, 1%nat));
  params_mto (tf_params f) (snd st) (fst st).
Definition tft_marshal (f : tft) : res bytes := tft_mto f (zeros (tft_mlen f)).
(** tft.go:156-163 the loop over the announced number of filters *)
Fixpoint filters_parse (n : nat) (b : bytes) (off : nat) : res (list pfilter * nat) :=
  match n with
  | O => Ok ([], off)
  | S n =>
      do s <- slice_from b off;
      do f <- filter_parse s;
      do r <- filters_parse n b (off + filter_mlen f);
      Ok (f :: fst r, snd r)
  end.
(** tft.go:131-138 Parse, 141-182 UnmarshalBinary *)
Definition tft_parse (b : bytes) : res tft :=
  if (len b <? 1)%nat then Err EUnexpectedEOF else
  do x <- idx b 0;
  let op := N.shiftr x 5 in
  let has_params := N.land (N.shiftr x 4) 1 =? 1 in
  let n := N.to_nat (N.land x 15) in
  do r <- (if has_filters op then do r <- filters_parse n b 1; Ok (fst r, [], snd r)
           else if op =? 5 then
             if (len b <? 1 + n)%nat then Err EUnexpectedEOF else
             do ids <- slice b 1 (1 + n); Ok ([], ids, (1 + n)%nat)
           else Ok ([], [], 1%nat));
  let '(fs, ids, off) := r in
  do ps <- (if has_params then do s <- slice_from b off; params_parse s else Ok []);
  Ok (Tft op fs ids ps).

Section G.
Context (g : N -> bool).
(** bearer-tft.go:22-30 NewBearerTFT, tad.go:11-19 NewTrafficAggregateDescription (the
    others call these with a fixed operation) *)
Definition new_bearer_tft (op : N) (fs : list (option pfilter)) (ids : bytes) (ps : list (option param))
  : res (option ie2) := new_or_nil g 84 (tft_marshal (new_tft op fs ids ps)).
Definition new_tad (op : N) (fs : list (option pfilter)) (ids : bytes) (ps : list (option param))
  : res (option ie2) := new_or_nil g 85 (tft_marshal (new_tft op fs ids ps)).
(** tft.go:17-36 TrafficFlowTemplate *)
Definition acc_tft (i : ie2) : res tft :=
  if (i2_type i =? 84) || (i2_type i =? 85) then tft_parse (i2_payload i)
  else if i2_type i =? 93 then
    do ies <- bearer_context g i;
    match find (fun c => i2_type c =? 84) ies with
    | Some c => tft_parse (i2_payload c)
    | None => Err EIENotFound
    end
  else Err EInvalidType.
End G.

(** ** Component constructors and accessors *)
(** tft.go:370-382: append(ip.To4(), mask...) *)
Definition new_ipv4_comp (t : N) (ip : option bytes) (mask : bytes) : comp := Comp t (ip_bytes (to4 ip) ++ mask).
Definition new_ipv6_comp (t : N) (ip : option bytes) (mask : bytes) : comp := Comp t (ip_bytes (to16 ip) ++ mask).
(** tft.go:385-392 *)
Definition new_ipv6_prefix_comp (t : N) (ip : option bytes) (prefix : N) : comp := Comp t (ip_bytes (to16 ip) ++ [prefix]).
(** tft.go:395-397, 471-478 *)
Definition new_u8_comp (t v : N) : comp := Comp t [v].
(** tft.go:400-404, 415-419, 457-468, 481-485 *)
Definition new_u16_comp (t v : N) : comp := Comp t (enc16 v).
(** tft.go:407-412, 422-427 *)
Definition new_range_comp (t lo hi : N) : comp := Comp t (enc16 lo ++ enc16 hi).
(** tft.go:430-434 *)
Definition new_spi_comp (v : N) : comp := Comp 96 (enc32 v).
(** tft.go:437-439 *)
Definition new_tos_comp (c m : N) : comp := Comp 112 [c; m].
(** tft.go:442-444 *)
Definition new_flow_label_comp (v : N) : comp := Comp 128 (uint32to24 v).
(** tft.go:447-454 *)
Definition new_mac_comp (t : N) (mac : bytes) : comp := Comp t mac.

Definition comp_get {A} (t : N) (n : nat) (f : bytes -> res A) (c : comp) : res A :=
  if negb (co_type c =? t) then Err EInvalidType else
  if (len (co_contents c) <? n)%nat then Err EUnexpectedEOF else f (co_contents c).
(** tft.go:488-509 IPv4RemoteAddress, IPv4LocalAddress: address and mask *)
Definition get_ipv4_comp (t : N) : comp -> res (bytes * bytes) :=
  comp_get t 8 (fun b => do a <- slice b 0 4; do m <- slice b 4 8; Ok (a, m)).
(** tft.go:512-521 IPv6RemoteAddress: the mask is read from octet 17 on *)
Definition get_ipv6_comp : comp -> res (bytes * bytes) :=
  comp_get 32 32 (fun b => do a <- slice b 0 16; do m <- slice b 17 32; Ok (a, m)).
(** tft.go:525-555 IPv6RemoteAddressPrefixLength, IPv6LocalAddressPrefixLength: the prefix is
    read from octet 17 (net.CIDRMask of it is not modelled) *)
Definition get_ipv6_prefix_comp (t : N) : comp -> res (bytes * N) :=
  comp_get t 17 (fun b => do a <- slice b 0 16; do p <- idx b 17; Ok (a, p)).
(** tft.go:559-568, 713-734 *)
Definition get_u8_comp (t : N) : comp -> res N := comp_get t 1 (fun b => idx b 0).
(** tft.go:571-580, 598-607, 689-710, 737-746 *)
Definition get_u16_comp (t : N) : comp -> res N := comp_get t 2 (fun b => do s <- slice b 0 2; be16 s).
(** tft.go:584-595, 611-622 *)
Definition get_range_comp (t : N) : comp -> res (N * N) :=
  comp_get t 4 (fun b => do s <- slice b 0 2; do lo <- be16 s; do s <- slice b 2 4; do hi <- be16 s; Ok (lo, hi)).
(** tft.go:626-635 *)
Definition get_spi_comp : comp -> res N := comp_get 96 4 (fun b => do s <- slice b 0 4; be32 s).
(** tft.go:639-648 *)
Definition get_tos_comp : comp -> res (N * N) := comp_get 112 2 (fun b => do c <- idx b 0; do m <- idx b 1; Ok (c, m)).
(** tft.go:651-660 *)
Definition get_flow_label_comp : comp -> res N :=
  comp_get 128 3 (fun b => do s <- slice b 0 3; Ok (uint24to32 s)).
(** tft.go:664-686 *)
Definition get_mac_comp (t : N) : comp -> res bytes := comp_get t 6 (fun b => slice b 0 6).
(** the one-value components by name *)
Definition u8_comps : list (string * N) := [
  ("ProtocolIdentifierNextHeader", 48)  (* tft.go:395-397, 559-568 *);
  ("Dot1QCTAGPCPDEI", 133)              (* tft.go:471-473, 713-722 *);
  ("Dot1QSTAGPCPDEI", 134)              (* tft.go:476-478, 725-734 *) ].
Definition u16_comps : list (string * N) := [
  ("SingleLocalPort", 64)               (* tft.go:400-404, 571-580 *);
  ("SingleRemotePort", 80)              (* tft.go:415-419, 598-607 *);
  ("Dot1QCTAGVID", 131)                 (* tft.go:457-461, 689-698 *);
  ("Dot1QSTAGVID", 132)                 (* tft.go:464-468, 701-710 *);
  ("Ethertype", 135)                    (* tft.go:481-485, 737-746 *) ].
Definition range_comps : list (string * N) := [
  ("LocalPortRange", 65)                (* tft.go:407-412, 584-595 *);
  ("RemotePortRange", 81)               (* tft.go:422-427, 611-622 *) ].
