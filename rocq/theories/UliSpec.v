(** The User Location Information IE (TS 29.274 clause 8.21), independently of V2Uli.v's
    functions (only its records are used). *)
From Verif Require Import Base Spec CodecSpec V2Uli.
Open Scope N_scope.
Open Scope list_scope.

(** a component is valid when its PLMN is and its values fit their fields *)
Definition loc2_ok (v : loc2) : Prop := is_mcc (l2_mcc v) /\ is_mnc (l2_mnc v) /\ l2_lac v < 2 ^ 16 /\ l2_x v < 2 ^ 16.
Definition loc1_ok (bits : N) (v : loc1) : Prop := is_mcc (l1_mcc v) /\ is_mnc (l1_mnc v) /\ l1_x v < 2 ^ bits.
Definition opt_ok {A} (P : A -> Prop) (o : option A) : Prop := match o with Some v => P v | None => True end.
(** the octets of a component *)
Definition loc2_octets (v : loc2) : bytes := plmn_octets (l2_mcc v) (l2_mnc v) ++ enc16 (l2_lac v) ++ enc16 (l2_x v).
Definition loc1_octets (enc : N -> bytes) (v : loc1) : bytes := plmn_octets (l1_mcc v) (l1_mnc v) ++ enc (l1_x v).
Definition part {A} (f : A -> bytes) (o : option A) : bytes := match o with Some v => f v | None => [] end.
(** one bit for each component, CGI lowest *)
Definition uli_flags (cgi sai rai : option loc2) (tai ecgi lai menbi emenbi : option loc1) : N :=
  b2n (present cgi) + 2 * b2n (present sai) + 4 * b2n (present rai) + 8 * b2n (present tai) + 16 * b2n (present ecgi) +
  32 * b2n (present lai) + 64 * b2n (present menbi) + 128 * b2n (present emenbi).
(** then the components that are present, in this order *)
Definition uli_octets (cgi sai rai : option loc2) (tai ecgi lai menbi emenbi : option loc1) : bytes :=
  [uli_flags cgi sai rai tai ecgi lai menbi emenbi] ++
  part loc2_octets cgi ++ part loc2_octets sai ++ part loc2_octets rai ++
  part (loc1_octets enc16) tai ++ part (loc1_octets enc32) ecgi ++ part (loc1_octets enc16) lai ++
  part (loc1_octets enc24) menbi ++ part (loc1_octets enc24) emenbi.
Definition uli_ok (cgi sai rai : option loc2) (tai ecgi lai menbi emenbi : option loc1) : Prop :=
  opt_ok loc2_ok cgi /\ opt_ok loc2_ok sai /\ opt_ok loc2_ok rai /\ opt_ok (loc1_ok 16) tai /\ opt_ok (loc1_ok 32) ecgi /\
  opt_ok (loc1_ok 16) lai /\ opt_ok (loc1_ok 24) menbi /\ opt_ok (loc1_ok 24) emenbi.
Definition uli_value (cgi sai rai : option loc2) (tai ecgi lai menbi emenbi : option loc1) : uli :=
  Uli (uli_flags cgi sai rai tai ecgi lai menbi emenbi) cgi sai rai tai ecgi lai menbi emenbi.
(** the PLMN of the first component present *)
Definition first_plmn (cgi sai rai : option loc2) (tai ecgi lai menbi emenbi : option loc1) : option (bytes * bytes) :=
  match cgi, sai, rai with
  | Some v, _, _ | None, Some v, _ | None, None, Some v => Some (l2_mcc v, l2_mnc v)
  | _, _, _ =>
      match tai, ecgi, lai, menbi, emenbi with
      | Some v, _, _, _, _ | None, Some v, _, _, _ | None, None, Some v, _, _ | None, None, None, Some v, _
      | None, None, None, None, Some v => Some (l1_mcc v, l1_mnc v)
      | _, _, _, _, _ => None
      end
  end.
(** the size a flags octet asks for *)
Definition uli_size (fl : N) : nat :=
  (1 + (if N.testbit fl 0 then 7 else 0) + (if N.testbit fl 1 then 7 else 0) + (if N.testbit fl 2 then 7 else 0) +
   (if N.testbit fl 3 then 5 else 0) + (if N.testbit fl 4 then 7 else 0) + (if N.testbit fl 5 then 5 else 0) +
   (if N.testbit fl 6 then 6 else 0) + (if N.testbit fl 7 then 6 else 0))%nat.
(** an argument together with the flag that says whether it is given *)
Definition given {A} (h : bool) (v : A) : option A := if h then Some v else None.
(** a signed argument of the lazy constructor: negative means absent *)
Definition zgiven {A} (z : Z) (v : N -> A) : option A := if (z <? 0)%Z then None else Some (v (Z.to_N z)).
(** what the MCC and MNC accessors should return *)
Definition mcc_mnc_result (o : option (bytes * bytes)) : res (bytes * bytes) := match o with Some p => Ok p | None => Err EUnexpectedEOF end.
(** every component present belongs to the same network *)
Definition same_plmn (mcc mnc : bytes) (cgi sai rai : option loc2) (tai ecgi lai menbi emenbi : option loc1) : Prop :=
  let p2 := opt_ok (fun v => l2_mcc v = mcc /\ l2_mnc v = mnc) in
  let p1 := opt_ok (fun v => l1_mcc v = mcc /\ l1_mnc v = mnc) in
  p2 cgi /\ p2 sai /\ p2 rai /\ p1 tai /\ p1 ecgi /\ p1 lai /\ p1 menbi /\ p1 emenbi.
