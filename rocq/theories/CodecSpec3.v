(** Layout of the Traffic Flow Template (TS 24.008 10.5.6.12), continuing CodecSpec2.v. *)
From Verif Require Import Base V2IE V2IESpec CodecSpec V2Tft.
Open Scope N_scope.
Open Scope list_scope.

(** packet filter component types and the size of their values; other types carry none *)
Definition comp_sizes : list (N * N) := [
  (16, 8); (17, 8); (32, 32); (33, 17); (35, 17); (48, 1); (64, 2); (65, 4); (80, 2); (81, 4);
  (96, 4); (112, 2); (128, 3); (129, 6); (130, 6); (131, 2); (132, 2); (133, 1); (134, 1); (135, 2)].
Definition spec_size (t : N) : nat :=
  match find (fun e => fst e =? t) comp_sizes with Some e => N.to_nat (snd e) | None => 0%nat end.
Definition comp_octets (c : comp) : bytes := co_type c :: co_contents c.
Definition comp_ok (c : comp) : Prop :=
  co_type c < 256 /\ bytes_ok (co_contents c) /\ len (co_contents c) = spec_size (co_type c).
(** direction and identifier, precedence, length, components *)
Definition filter_octets (f : pfilter) : bytes :=
  [16 * pf_dir f + pf_id f; pf_prec f; pf_length f] ++ flat_map comp_octets (pf_comps f).
Definition filter_ok (f : pfilter) : Prop :=
  pf_dir f < 4 /\ pf_id f < 16 /\ pf_prec f < 256 /\ pf_length f < 256 /\ Forall comp_ok (pf_comps f) /\
  N.to_nat (pf_length f) = len (flat_map comp_octets (pf_comps f)).
Definition param_octets (p : param) : bytes := [pm_id p; pm_length p] ++ pm_contents p.
Definition param_ok (p : param) : Prop :=
  pm_id p < 256 /\ pm_length p < 256 /\ bytes_ok (pm_contents p) /\ N.to_nat (pm_length p) = len (pm_contents p).
(** operation (3 bits), E bit (parameters list present), number of packet filters (4 bits);
    then packet filters (operations 1 create, 3 add, 4 replace) or packet filter identifiers
    (operation 5 delete), then the parameters *)
Definition first_octet (op e n : N) : N := 32 * op + 16 * e + n.
Definition body_octets (f : tft) : bytes := flat_map filter_octets (tf_filters f) ++ tf_ids f.
Definition params_octets (f : tft) : bytes := flat_map param_octets (tf_params f).
Definition with_filters (op : N) : bool := (op =? 1) || (op =? 3) || (op =? 4).
(** the number announced in the first octet *)
Definition body_count (f : tft) : nat := (List.length (tf_filters f) + len (tf_ids f))%nat.
Definition body_ok (f : tft) : Prop :=
  tf_op f < 8 /\ Forall filter_ok (tf_filters f) /\ bytes_ok (tf_ids f) /\ Forall param_ok (tf_params f) /\
  (body_count f < 16)%nat /\
  (with_filters (tf_op f) = false -> tf_filters f = []) /\ (tf_op f <> 5 -> tf_ids f = []).
Definition e_bit (f : tft) : N := match tf_params f with [] => 0 | _ => 1 end.
Definition tft_octets (f : tft) : bytes :=
  [first_octet (tf_op f) (e_bit f) (N.of_nat (body_count f))] ++ body_octets f ++ params_octets f.
