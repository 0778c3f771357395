(** Which IE types are grouped: gtpv2/ie/ie_grouped.go:32-82.  The package variables are one
    record; each call takes effect at once.  IsGrouped reads the variable isGroupedFun
    without the lock (line 81), so a concurrent SetIsGroupedFun is a data race, whose
    behaviour is not modelled.  No proofs here. *)
From Verif Require Import Base V2IE.
Open Scope N_scope.
Open Scope list_scope.

(** isGroupedFun: the initial closure over the map, a function of the user, or nil *)
Inductive gfun := GDefault | GUser (f : N -> bool) | GNil.
(** 35-53: defaultGroupedIEMap (its keys) and isGroupedFun *)
Record reg := Reg { r_keys : list N; r_fun : gfun }.
(** 37-46, 47-52: the values at program start; BearerContext, PDNConnection,
    OverloadControlInformation, LoadControlInformation, RemoteUEContext, SCEFPDNConnection,
    V2XContext, PC5QoSParameters *)
Definition reg0 : reg := Reg [93; 109; 180; 181; 191; 195; 208; 209] GDefault.

Inductive op :=
| OSet (f : option (N -> bool))              (* SetIsGroupedFun; None: nil *)
| OAdd (ts : list N).                        (* AddGroupedIEType *)
Definition apply (r : reg) (o : op) : reg :=
  match o with
  | OSet None => Reg (r_keys r) GNil                     (* 56-60 *)
  | OSet (Some f) => Reg (r_keys r) (GUser f)
  | OAdd ts => Reg (r_keys r ++ ts) (r_fun r)            (* 66-72 *)
  end.
Definition after (ops : list op) : reg := fold_left apply ops reg0.
(** 80-82 IsGrouped of an IE of type t; 47-52 the default; calling a nil function panics *)
Definition is_grouped (r : reg) (t : N) : res bool :=
  match r_fun r with
  | GDefault => Ok (existsb (N.eqb t) (r_keys r))
  | GUser f => Ok (f t)
  | GNil => Panic
  end.
(** the classification the IE functions use, while isGroupedFun is not nil *)
Definition classify (r : reg) (t : N) : bool := match is_grouped r t with Ok b => b | _ => false end.
