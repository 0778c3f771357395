(** Model of gtpv2/ie/pco.go and pco-ppp.go.  No proofs here. *)
From Verif Require Import Base Utils V2IE V2Codec.
Open Scope N_scope.
Open Scope list_scope.

(** pco.go:165-169 PCOContainer *)
Record container : Type := Container { ct_id : N; ct_length : N; ct_contents : bytes }.
(** pco.go:172-179 NewPCOContainer, 231-233 MarshalLen *)
Definition new_container (id : N) (c : bytes) : container := Container id (u8 (N.of_nat (len c))) c.
Definition container_mlen (c : container) : nat := (3 + len (ct_contents c))%nat.
(** pco.go:192-200 MarshalTo: no length check *)
Definition container_mto (c : container) (b : bytes) : res bytes :=
  do b <- on_slice b 0 2 (put16 (ct_id c));
  do b <- set_idx b 2 (ct_length c);
  if ct_length c =? 0 then Ok b else copy_from b 3 (ct_contents c).
(** pco.go:203-228 Parse / UnmarshalBinary: contents that do not fit are left out *)
Definition container_parse (b : bytes) : res container :=
  let l := len b in
  if (l <? 3)%nat then Err ETooShortToParse else
  do s <- slice b 0 2; do id <- be16 s;
  do n <- idx b 2;
  if negb (n =? 0) && (3 + N.to_nat n <=? l)%nat then
    do c <- slice b 3 (3 + N.to_nat n); Ok (Container id n c)
  else Ok (Container id n []).

(** pco.go:64-68 ProtocolConfigurationOptionsFields; containers are non-nil *)
Record pco : Type := Pco { pc_ext : N; pc_proto : N; pc_opts : list container }.
(** pco.go:71-76 NewProtocolConfigurationOptionsFields *)
Definition new_pco_fields (proto : N) (opts : list container) : pco := Pco 0 proto opts.
(** pco.go:136-143 MarshalLen *)
Definition containers_len (cs : list container) : nat := fold_right (fun c n => container_mlen c + n)%nat 0%nat cs.
Definition pco_mlen (f : pco) : nat := (1 + containers_len (pc_opts f))%nat.
(** pco.go:92-97 *)
Fixpoint containers_mto (cs : list container) (off : nat) (b : bytes) : res bytes :=
  match cs with
  | [] => Ok b
  | c :: r => do b <- on_slice_from b off (container_mto c); containers_mto r (off + container_mlen c) b
  end.
(** pco.go:89-100 MarshalTo, 79-86 Marshal *)
Definition pco_mto (f : pco) (b : bytes) : res bytes :=
  do b <- set_idx b 0 (N.lor (N.land (pc_proto f) 7) 128);
  containers_mto (pc_opts f) 1 b.
Definition pco_marshal (f : pco) : res bytes := pco_mto f (zeros (pco_mlen f)).
(** pco.go:122-132: the loop; every round consumes at least three bytes *)
Fixpoint containers_parse (fuel : nat) (b : bytes) (off : nat) : res (list container) :=
  match fuel with
  | O => Panic
  | S fuel =>
      if (len b <=? off)%nat then Ok [] else
      do s <- slice_from b off;
      do c <- container_parse s;
      do r <- containers_parse fuel b (off + container_mlen c);
      Ok (c :: r)
  end.
(** pco.go:103-133 Parse / UnmarshalBinary *)
Definition pco_parse (b : bytes) : res pco :=
  if (len b <? 1)%nat then Err ETooShortToParse else
  do x <- idx b 0;
  do cs <- containers_parse (S (len b)) b 1;
  Ok (Pco (N.land (N.shiftr x 7) 1) (N.land x 7) cs).

Section G.
Context (g : N -> bool).
(** pco.go:19-27 NewProtocolConfigurationOptions *)
Definition new_pco (proto : N) (opts : list container) : res (option ie2) :=
  new_or_nil g 78 (pco_marshal (new_pco_fields proto opts)).
(** pco.go:31-54 ProtocolConfigurationOptions *)
Definition acc_pco : ie2 -> res pco := via_context g 78 (fun i =>
  if (len (i2_payload i) <? 1)%nat then Err EUnexpectedEOF else pco_parse (i2_payload i)).
End G.

(** ** pco-ppp.go *)
(** pco-ppp.go:21-26 PCOPPP, 29-36 NewPCOPPP, 129-131 MarshalLen *)
Record ppp : Type := Ppp { pp_code : N; pp_id : N; pp_length : N; pp_payload : bytes }.
Definition new_ppp (code id : N) (p : bytes) : ppp := Ppp code id (u16 (N.of_nat (4 + len p))) p.
Definition ppp_mlen (p : ppp) : nat := (4 + len (pp_payload p))%nat.
(** pco-ppp.go:86-97 MarshalTo *)
Definition ppp_mto (p : ppp) (b : bytes) : res bytes :=
  if (len b <? 5)%nat then Err EUnexpectedEOF else
  do b <- set_idx b 0 (pp_code p);
  do b <- set_idx b 1 (pp_id p);
  do b <- on_slice b 2 4 (put16 (pp_length p));
  copy_from b 4 (pp_payload p).
Definition ppp_marshal (p : ppp) : res bytes := ppp_mto p (zeros (ppp_mlen p)).
(** pco-ppp.go:100-126 Parse / UnmarshalBinary: b[4:Length] *)
Definition ppp_parse (b : bytes) : res ppp :=
  let l := len b in
  if (l <? 5)%nat then Err ETooShortToParse else
  do c <- idx b 0; do i <- idx b 1;
  do s <- slice b 2 4; do n <- be16 s;
  if (l <? N.to_nat n)%nat then Err EUnexpectedEOF else
  do p <- slice b 4 (N.to_nat n); Ok (Ppp c i n p).

(** pco-ppp.go:136-151 PAPFields, NewPAPFields; 227-229 MarshalLen *)
Record pap : Type := Pap { pa_idlen : N; pa_id : bytes; pa_pwlen : N; pa_pw : bytes }.
Definition new_pap (id pw : bytes) : pap := Pap (u8 (N.of_nat (len id))) id (u8 (N.of_nat (len pw))) pw.
Definition pap_mlen (p : pap) : nat := (2 + len (pa_id p) + len (pa_pw p))%nat.
(** pco-ppp.go:164-187 MarshalTo *)
Definition pap_mto (p : pap) (b : bytes) : res bytes :=
  let l := len b in
  if (l <? 2)%nat then Err EUnexpectedEOF else
  do b <- set_idx b 0 (pa_idlen p);
  let n := N.to_nat (pa_idlen p) in
  if (l <? 1 + n)%nat then Err EUnexpectedEOF else
  do b <- copy_at b 1 (1 + n) (pa_id p);
  do b <- set_idx b (1 + n) (pa_pwlen p);
  let m := N.to_nat (pa_pwlen p) in
  if (l <? 1 + n + 1 + m)%nat then Err EUnexpectedEOF else
  copy_at b (1 + n + 1) (1 + n + 1 + m) (pa_pw p).
Definition pap_marshal (p : pap) : res bytes := pap_mto p (zeros (pap_mlen p)).
(** pco-ppp.go:190-224 Parse / UnmarshalBinary *)
Definition pap_parse (b : bytes) : res pap :=
  let l := len b in
  if (l <? 2)%nat then Err ETooShortToParse else
  do x <- idx b 0;
  let n := N.to_nat x in
  if (l <? 1 + n)%nat then Err EUnexpectedEOF else
  do i <- slice b 1 (1 + n);
  do y <- idx b (1 + n);
  let m := N.to_nat y in
  if (l <? 1 + n + 1 + m)%nat then Err EUnexpectedEOF else
  do w <- slice b (1 + n + 1) (1 + n + 1 + m);
  Ok (Pap x i y w).

(** pco-ppp.go:234-247 CHAPFields, NewCHAPFields; 311-313 MarshalLen *)
Record chap : Type := Chap { ch_size : N; ch_value : bytes; ch_name : bytes }.
Definition new_chap (v name : bytes) : chap := Chap (u8 (N.of_nat (len v))) v name.
Definition chap_mlen (c : chap) : nat := (1 + len (ch_value c) + len (ch_name c))%nat.
(** pco-ppp.go:260-277 MarshalTo *)
Definition chap_mto (c : chap) (b : bytes) : res bytes :=
  let l := len b in
  if (l <? 2)%nat then Err EUnexpectedEOF else
  do b <- set_idx b 0 (ch_size c);
  let n := N.to_nat (ch_size c) in
  if (l <? 1 + n)%nat then Err EUnexpectedEOF else
  do b <- copy_at b 1 (1 + n) (ch_value c);
  copy_from b (1 + n) (ch_name c).
Definition chap_marshal (c : chap) : res bytes := chap_mto c (zeros (chap_mlen c)).
(** pco-ppp.go:280-308 Parse / UnmarshalBinary *)
Definition chap_parse (b : bytes) : res chap :=
  let l := len b in
  if (l <? 2)%nat then Err ETooShortToParse else
  do x <- idx b 0;
  let n := N.to_nat x in
  if (l <? 1 + n)%nat then Err EUnexpectedEOF else
  do v <- slice b 1 (1 + n);
  do r <- slice_from b (1 + n);
  Ok (Chap x v r).

(** pco-ppp.go:326-339 IPCPOption, NewIPCPOption; 445-447 MarshalLen *)
Record ipcp : Type := Ipcp { ip_type : N; ip_length : N; ip_payload : bytes }.
Definition new_ipcp (t : N) (p : bytes) : ipcp := Ipcp t (u8 (N.of_nat (2 + len p))) p.
Definition ipcp_mlen (o : ipcp) : nat := (2 + len (ip_payload o))%nat.
(** pco-ppp.go:342-391 the constructors from an address: its To4 form if it has one *)
Definition new_ipcp_addr (t : N) (ip : option bytes) : ipcp :=
  new_ipcp t (match to4 ip with Some v => v | None => ip_bytes ip end).
(** pco-ppp.go:404-414 MarshalTo *)
Definition ipcp_mto (o : ipcp) (b : bytes) : res bytes :=
  if (len b <? 3)%nat then Err EUnexpectedEOF else
  do b <- set_idx b 0 (ip_type o);
  do b <- set_idx b 1 (ip_length o);
  copy_from b 2 (ip_payload o).
Definition ipcp_marshal (o : ipcp) : res bytes := ipcp_mto o (zeros (ipcp_mlen o)).
(** pco-ppp.go:417-442 Parse / UnmarshalBinary: b[2:Length] *)
Definition ipcp_parse (b : bytes) : res ipcp :=
  let l := len b in
  if (l <? 3)%nat then Err ETooShortToParse else
  do t <- idx b 0; do n <- idx b 1;
  if (l <? N.to_nat n)%nat then Err EUnexpectedEOF else
  do p <- slice b 2 (N.to_nat n); Ok (Ipcp t n p).

(** pco-ppp.go:39-56 NewPCOPPPWithPAP, NewPCOPPPWithCHAP; None is nil *)
Definition new_ppp_with (code id : N) (r : res bytes) : res (option ppp) :=
  match r with Ok b => Ok (Some (new_ppp code id b)) | Err _ => Ok None | Panic => Panic end.
Definition new_ppp_pap (code id : N) (peer pass : bytes) : res (option ppp) :=
  new_ppp_with code id (pap_marshal (new_pap peer pass)).
Definition new_ppp_chap (code id : N) (v name : bytes) : res (option ppp) :=
  new_ppp_with code id (chap_marshal (new_chap v name)).
(** pco-ppp.go:59-73 NewPCOPPPWithIPCPOptions: the options one after the other *)
Fixpoint ipcps_marshal (os : list ipcp) : res bytes :=
  match os with
  | [] => Ok []
  | o :: r => do b <- ipcp_marshal o; do t <- ipcps_marshal r; Ok (b ++ t)
  end.
Definition new_ppp_ipcp (code id : N) (os : list ipcp) : res (option ppp) :=
  new_ppp_with code id (ipcps_marshal os).
