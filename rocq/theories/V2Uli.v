(** Model of gtpv2/ie/uli.go and of the ULI branch of mcc-mnc.go.  No proofs here. *)
From Verif Require Import Base Utils V2IE V2Codec V2Codec2.
Open Scope N_scope.
Open Scope list_scope.

(** uli.go:52-107 CGI, SAI, RAI: a PLMN and two 16-bit values (LAC and CI, SAC or RAC).  The
    embedded PLMN pointer is taken to be non-nil, as the NewXXX constructors make it. *)
Record loc2 : Type := Loc2 { l2_mcc : bytes; l2_mnc : bytes; l2_lac : N; l2_x : N }.
(** uli.go:115-202 TAI, ECGI, LAI, MENBI, EMENBI: a PLMN and one value *)
Record loc1 : Type := Loc1 { l1_mcc : bytes; l1_mnc : bytes; l1_x : N }.
(** uli.go:140-145 NewECGI masks its value *)
Definition new_ecgi (mcc mnc : bytes) (eci : N) : loc1 := Loc1 mcc mnc (N.land eci 268435455).

(** uli.go:236-246 UserLocationInformationFields; None is nil *)
Record uli : Type := Uli {
  u_flags : N;
  u_cgi : option loc2; u_sai : option loc2; u_rai : option loc2;
  u_tai : option loc1; u_ecgi : option loc1; u_lai : option loc1;
  u_menbi : option loc1; u_emenbi : option loc1 }.

Definition flag_if {A} (o : option A) (v : N) : N := match o with Some _ => v | None => 0 end.
(** uli.go:249-286 NewUserLocationInformationFields *)
Definition new_uli_fields (cgi sai rai : option loc2) (tai ecgi lai menbi emenbi : option loc1) : uli :=
  Uli (N.lor (N.lor (N.lor (N.lor (N.lor (N.lor (N.lor (flag_if cgi 1) (flag_if sai 2)) (flag_if rai 4))
        (flag_if tai 8)) (flag_if ecgi 16)) (flag_if lai 32)) (flag_if menbi 64)) (flag_if emenbi 128))
      cgi sai rai tai ecgi lai menbi emenbi.

(** uli.go:549-578 MarshalLen, 691-718 uliPayloadLen *)
Definition uli_mlen (fl : N) : nat :=
  (1 + (if hasbit 0 fl then 7 else 0) + (if hasbit 1 fl then 7 else 0) + (if hasbit 2 fl then 7 else 0)
     + (if hasbit 3 fl then 5 else 0) + (if hasbit 4 fl then 7 else 0) + (if hasbit 5 fl then 5 else 0)
     + (if hasbit 6 fl then 6 else 0) + (if hasbit 7 fl then 6 else 0))%nat.

(** one component of uli.go:299-416: [if bit {length check; EncodePLMN; copy; put; offset += n}] *)
Definition enc_step {A} (fl k : N) (n : nat) (w : A -> nat -> bytes -> res bytes) (o : option A)
    (st : bytes * nat) : res (bytes * nat) :=
  let '(b, off) := st in
  if hasbit k fl then
    if (len b <? off + n)%nat then Err EUnexpectedEOF else
    match o with
    | None => Panic
    | Some v => do b <- w v off b; Ok (b, (off + n)%nat)
    end
  else Ok (b, off).
(** uli.go:313-319 *)
Definition put_loc2 (v : loc2) (off : nat) (b : bytes) : res bytes :=
  do plmn <- encode_plmn (l2_mcc v) (l2_mnc v);
  do b <- copy_at b off (off + 3) plmn;
  do b <- on_slice b (off + 3) (off + 5) (put16 (l2_lac v));
  on_slice b (off + 5) (off + 7) (put16 (l2_x v)).
(** uli.go:355-360 *)
Definition put_loc16 (v : loc1) (off : nat) (b : bytes) : res bytes :=
  do plmn <- encode_plmn (l1_mcc v) (l1_mnc v);
  do b <- copy_at b off (off + 3) plmn;
  on_slice b (off + 3) (off + 5) (put16 (l1_x v)).
(** uli.go:368-373 *)
Definition put_loc32 (v : loc1) (off : nat) (b : bytes) : res bytes :=
  do plmn <- encode_plmn (l1_mcc v) (l1_mnc v);
  do b <- copy_at b off (off + 3) plmn;
  on_slice b (off + 3) (off + 7) (put32 (l1_x v)).
(** uli.go:394-399 *)
Definition put_loc24 (v : loc1) (off : nat) (b : bytes) : res bytes :=
  do plmn <- encode_plmn (l1_mcc v) (l1_mnc v);
  do b <- copy_at b off (off + 3) plmn;
  copy_at b (off + 3) (off + 6) (uint32to24 (l1_x v)).
(** uli.go:299-416 MarshalTo *)
Definition uli_mto (f : uli) (b : bytes) : res bytes :=
  if (len b <? 1)%nat then Err EUnexpectedEOF else
  do b <- set_idx b 0 (u_flags f);
  let fl := u_flags f in
  do st <- enc_step fl 0 7 put_loc2 (u_cgi f) (b, 1%nat);
  do st <- enc_step fl 1 7 put_loc2 (u_sai f) st;
  do st <- enc_step fl 2 7 put_loc2 (u_rai f) st;
  do st <- enc_step fl 3 5 put_loc16 (u_tai f) st;
  do st <- enc_step fl 4 7 put_loc32 (u_ecgi f) st;
  do st <- enc_step fl 5 5 put_loc16 (u_lai f) st;
  do st <- enc_step fl 6 6 put_loc24 (u_menbi f) st;
  do st <- enc_step fl 7 6 put_loc24 (u_emenbi f) st;
  Ok (fst st).
(** uli.go:289-296 Marshal *)
Definition uli_marshal (f : uli) : res bytes := uli_mto f (zeros (uli_mlen (u_flags f))).

(** one component of uli.go:429-546 *)
Definition dec_step {A} (fl k : N) (n : nat) (r : bytes -> nat -> res A) (b : bytes) (off : nat)
    : res (option A * nat) :=
  if hasbit k fl then
    if (len b <? off + n)%nat then Err EUnexpectedEOF else
    do v <- r b off; Ok (Some v, (off + n)%nat)
  else Ok (None, off).
(** uli.go:443-449 *)
Definition get_loc2 (b : bytes) (off : nat) : res loc2 :=
  do s <- slice b off (off + 3); do p <- decode_plmn s;
  do s <- slice b (off + 3) (off + 5); do x <- be16 s;
  do s <- slice b (off + 5) (off + 7); do y <- be16 s;
  Ok (Loc2 (fst p) (snd p) x y).
(** uli.go:485-490 *)
Definition get_loc16 (b : bytes) (off : nat) : res loc1 :=
  do s <- slice b off (off + 3); do p <- decode_plmn s;
  do s <- slice b (off + 3) (off + 5); do x <- be16 s;
  Ok (Loc1 (fst p) (snd p) x).
(** uli.go:498-503 *)
Definition get_loc32 (b : bytes) (off : nat) : res loc1 :=
  do s <- slice b off (off + 3); do p <- decode_plmn s;
  do s <- slice b (off + 3) (off + 7); do x <- be32 s;
  Ok (Loc1 (fst p) (snd p) x).
(** uli.go:524-529 *)
Definition get_loc24 (b : bytes) (off : nat) : res loc1 :=
  do s <- slice b off (off + 3); do p <- decode_plmn s;
  do s <- slice b (off + 3) (off + 6);
  Ok (Loc1 (fst p) (snd p) (uint24to32 s)).
(** uli.go:419-426 Parse, 429-546 UnmarshalBinary *)
Definition uli_parse (b : bytes) : res uli :=
  if (len b <? 1)%nat then Err EUnexpectedEOF else
  do fl <- idx b 0;
  do r1 <- dec_step fl 0 7 get_loc2 b 1;
  do r2 <- dec_step fl 1 7 get_loc2 b (snd r1);
  do r3 <- dec_step fl 2 7 get_loc2 b (snd r2);
  do r4 <- dec_step fl 3 5 get_loc16 b (snd r3);
  do r5 <- dec_step fl 4 7 get_loc32 b (snd r4);
  do r6 <- dec_step fl 5 5 get_loc16 b (snd r5);
  do r7 <- dec_step fl 6 6 get_loc24 b (snd r6);
  do r8 <- dec_step fl 7 6 get_loc24 b (snd r7);
  Ok (Uli fl (fst r1) (fst r2) (fst r3) (fst r4) (fst r5) (fst r6) (fst r7) (fst r8)).

(** uli.go:723-824 UserLocationInfo: every component's PLMN pointer is the same variable, so
    all of them show the PLMN decoded last; Flags stays 0.  (The value returned beside an
    error is not modelled.) *)
Definition last_plmn (f : uli) : bytes * bytes :=
  let p2 (o : option loc2) d := match o with Some v => (l2_mcc v, l2_mnc v) | None => d end in
  let p1 (o : option loc1) d := match o with Some v => (l1_mcc v, l1_mnc v) | None => d end in
  p1 (u_emenbi f) (p1 (u_menbi f) (p1 (u_lai f) (p1 (u_ecgi f) (p1 (u_tai f)
    (p2 (u_rai f) (p2 (u_sai f) (p2 (u_cgi f) ([], [])))))))).
Definition share2 (p : bytes * bytes) (o : option loc2) : option loc2 :=
  option_map (fun v => Loc2 (fst p) (snd p) (l2_lac v) (l2_x v)) o.
Definition share1 (p : bytes * bytes) (o : option loc1) : option loc1 :=
  option_map (fun v => Loc1 (fst p) (snd p) (l1_x v)) o.
Definition acc_uli_info (i : ie2) : res uli :=
  do f <- uli_parse (i2_payload i);
  let p := last_plmn f in
  Ok (Uli 0 (share2 p (u_cgi f)) (share2 p (u_sai f)) (share2 p (u_rai f)) (share1 p (u_tai f))
        (share1 p (u_ecgi f)) (share1 p (u_lai f)) (share1 p (u_menbi f)) (share1 p (u_emenbi f))).

(** uli.go:68-70, 89-91, ... HasCGI .. HasEMENBI: Flags & mask != 0 *)
Definition uli_has (k : N) (f : uli) : bool := negb (N.land (u_flags f) (2 ^ k) =? 0).

Section G.
Context (g : N -> bool).
(** uli.go:211-219 NewUserLocationInformationStruct *)
Definition new_uli (cgi sai rai : option loc2) (tai ecgi lai menbi emenbi : option loc1) : res (option ie2) :=
  new_or_nil g 86 (uli_marshal (new_uli_fields cgi sai rai tai ecgi lai menbi emenbi)).
(** uli.go:223-230 UserLocationInformation *)
Definition acc_uli : ie2 -> res uli := typed 86 (fun i => uli_parse (i2_payload i)).

(** uli.go:623-689 NewUserLocationInformation: eci is masked with 0xfffff.  The flags are
    given as 0 or 1 (only their lowest bit is used). *)
Definition new_uli_args (hcgi hsai hrai htai hecgi hlai hmenbi hemenbi : N)
    (mcc mnc : bytes) (lac ci sac rac tac eci menbi emenbi : N) : res (option ie2) :=
  let bit h := N.land h 1 in
  let fl := N.lor (N.lor (N.lor (N.lor (N.lor (N.lor (N.lor (u8 (N.shiftl (bit hemenbi) 7))
             (u8 (N.shiftl (bit hmenbi) 6))) (u8 (N.shiftl (bit hlai) 5))) (u8 (N.shiftl (bit hecgi) 4)))
             (u8 (N.shiftl (bit htai) 3))) (u8 (N.shiftl (bit hrai) 2))) (u8 (N.shiftl (bit hsai) 1))) (bit hcgi) in
  match encode_plmn mcc mnc with
  | Panic => Panic
  | Err _ => Ok None
  | Ok _ =>
      do b <- set_idx (zeros (uli_mlen fl)) 0 fl;
      do st <- enc_step fl 0 7 put_loc2 (Some (Loc2 mcc mnc lac ci)) (b, 1%nat);
      do st <- enc_step fl 1 7 put_loc2 (Some (Loc2 mcc mnc lac sac)) st;
      do st <- enc_step fl 2 7 put_loc2 (Some (Loc2 mcc mnc lac rac)) st;
      do st <- enc_step fl 3 5 put_loc16 (Some (Loc1 mcc mnc tac)) st;
      do st <- enc_step fl 4 7 put_loc32 (Some (Loc1 mcc mnc (N.land eci 1048575))) st;
      do st <- enc_step fl 5 5 put_loc16 (Some (Loc1 mcc mnc lac)) st;
      do st <- enc_step fl 6 6 put_loc24 (Some (Loc1 mcc mnc menbi)) st;
      do st <- enc_step fl 7 6 put_loc24 (Some (Loc1 mcc mnc emenbi)) st;
      Ok (Some (IE2 86 (u16 (N.of_nat (uli_mlen fl))) 0 (fst st) []))
  end.
(** uli.go:586-618 NewUserLocationInformationLazy: a component is present when its value is
    not negative *)
Definition nonneg (z : Z) : N := if (0 <=? z)%Z then 1 else 0.
Definition zu16 (z : Z) : N := Z.to_N (z mod 65536).
Definition zu32 (z : Z) : N := Z.to_N (z mod 4294967296).
Definition new_uli_lazy (mcc mnc : bytes) (lac ci sac rac tac eci menbi emenbi : Z) : res (option ie2) :=
  new_uli_args (nonneg ci) (nonneg sac) (nonneg rac) (nonneg tac) (nonneg eci) (nonneg lac)
    (nonneg menbi) (nonneg emenbi) mcc mnc (zu16 lac) (zu16 ci) (zu16 sac) (zu16 rac) (zu16 tac)
    (zu32 eci) (zu32 menbi) (zu32 emenbi).

(** mcc-mnc.go:33-56, 88-111: the ULI branch of MCC and MNC *)
Definition acc_mcc_mnc_all (i : ie2) : res (bytes * bytes) :=
  if (len (i2_payload i) <? 3)%nat then Err EUnexpectedEOF else
  if i2_type i =? 86 then
    do f <- acc_uli i;
    let p2 (o : option loc2) := match o with Some v => Ok (l2_mcc v, l2_mnc v) | None => Panic end in
    let p1 (o : option loc1) := match o with Some v => Ok (l1_mcc v, l1_mnc v) | None => Panic end in
    if uli_has 0 f then p2 (u_cgi f) else if uli_has 1 f then p2 (u_sai f)
    else if uli_has 2 f then p2 (u_rai f) else if uli_has 3 f then p1 (u_tai f)
    else if uli_has 4 f then p1 (u_ecgi f) else if uli_has 5 f then p1 (u_lai f)
    else if uli_has 6 f then p1 (u_menbi f) else if uli_has 7 f then p1 (u_emenbi f)
    else Err (EOther 2)
  else acc_mcc_mnc i.
End G.
