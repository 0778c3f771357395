(** What a payload must be for TrafficFlowTemplate to answer, and with what (property C67).
    The octets of components, filters and parameters are those of CodecSpec3.v. *)
From Verif Require Import Base V2Tft CodecSpec3.
Open Scope N_scope.
Open Scope list_scope.

(** a packet filter on the wire; the two high bits of its first octet are ignored *)
Definition filter_spelled (f : pfilter) (w : bytes) : Prop :=
  filter_ok f /\ exists spare, spare < 4 /\
  w = [64 * spare + 16 * pf_dir f + pf_id f; pf_prec f; pf_length f] ++ flat_map comp_octets (pf_comps f).
(** the part counted by the first octet: n filters, n filter identifiers, or nothing *)
Definition counted (f : tft) (n : nat) (body : bytes) : Prop :=
  if with_filters (tf_op f) then tf_ids f = [] /\ List.length (tf_filters f) = n /\
    exists ws, Forall2 filter_spelled (tf_filters f) ws /\ body = concat ws
  else tf_filters f = [] /\ tf_ids f = body /\ len body = (if tf_op f =? 5 then n else 0%nat).
(** the first octet (operation, E bit, count), that part, and - with the E bit - parameters to
    the end of the payload; without it the rest is ignored *)
Definition tft_spelled (f : tft) (p : bytes) : Prop :=
  exists x body rest, p = x :: body ++ rest /\ tf_op f = x / 32 /\ counted f (N.to_nat (x mod 16)) body /\
  if N.odd (x / 16) then Forall param_ok (tf_params f) /\ rest = flat_map param_octets (tf_params f) else tf_params f = [].
