(** What CreateSession owes its user: which IEs it takes what from.  Independent of the
    statements of CPlane.v; the IEs are read with their own accessors. *)
From Verif Require Import Base V2IE V2Codec V2Codec2 CPlane.
Open Scope N_scope.
Open Scope list_scope.

(** the IEs that are not nil *)
Fixpoint given (ies : list (option ie2)) : list ie2 :=
  match ies with [] => [] | Some i :: r => i :: given r | None :: r => given r end.
(** the last IE that satisfies p *)
Definition last_ie (p : ie2 -> bool) (ies : list ie2) : option ie2 := find p (rev ies).
Definition of_type (t : N) (i : ie2) : bool := i2_type i =? t.
(** what it says, or a default *)
Definition says {A} (f : ie2 -> res A) (d : A) (o : option ie2) : A :=
  match o with Some i => match f i with Ok v => v | _ => d end | None => d end.
(** the IEs in the Bearer Contexts to be created (instance 0) *)
Definition to_create (i : ie2) : bool := (i2_type i =? 93) && (i2_instance i =? 0).
Definition bearer_ies (ies : list ie2) : list ie2 := flat_map i2_children (filter to_create ies).
(** the IEs themselves and those in the Bearer Contexts, in order *)
Definition all_ies (ies : list ie2) : list ie2 := flat_map (fun i => if to_create i then i2_children i else [i]) ies.
(** an F-TEID for this interface *)
Definition for_interface (it : N) (i : ie2) : bool :=
  (i2_type i =? 87) && match acc_if_type i with Ok x => x =? it | _ => false end.
(** the IEs which CreateSession reads can be read *)
Definition reads {A} (r : res A) : bool := match r with Ok _ => true | _ => false end.
Definition readable_child (i : ie2) : bool :=
  let t := i2_type i in
  if t =? 73 then reads (acc_ebi g2 i)
  else if t =? 80 then reads (acc_priority_level g2 i) && reads (acc_qci g2 i) && reads (acc_umbr i) && reads (acc_dmbr i) && reads (acc_ugbr i)
  else if t =? 87 then reads (acc_if_type i) && reads (acc_teid i)
  else true.
Definition readable (i : ie2) : bool :=
  let t := i2_type i in
  if t =? 1 then reads (acc_imsi i)
  else if t =? 76 then reads (acc_msisdn i)
  else if t =? 75 then reads (acc_mei i)
  else if t =? 83 then reads (acc_mcc_mnc i)
  else if t =? 71 then reads (acc_fqdn g2 71 i)
  else if t =? 82 then reads (acc_u8 g2 82 i)
  else if t =? 87 then reads (acc_if_type i) && reads (acc_teid i)
  else if to_create i then forallb readable_child (i2_children i)
  else true.
(** an IE made of octets, as a Go value always is *)
Definition made_of_octets (i : ie2) : Prop := bytes_ok (i2_payload i) /\ Forall (fun ch => bytes_ok (i2_payload ch)) (i2_children i).
(** an F-TEID for the local interface that carries this TEID, among the IEs themselves *)
Definition carries (it t : N) (i : ie2) : bool := for_interface it i && match acc_teid i with Ok x => x =? t | _ => false end.
(** the sequence number after n *)
Definition next_number (n : N) : N := if n <? 8388607 then n + 1 else 0.
(** was something transmitted? *)
Definition sends (e : event) : bool := match e with EvSent _ _ _ _ _ | EvReply _ _ _ _ => true | _ => false end.
