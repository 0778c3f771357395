(** C31, continued: the constructors for one operation on a traffic flow template. *)
From Verif Require Import Base BaseLemmas Utils V2IE V2IESpec V2Codec V2Tft V2TftOps CodecSpec CodecSpec3 Properties2Codec2.
From Verif Require V2TftProofs.
Local Open Scope N_scope.
Local Open Scope list_scope.

(** The IE made has type [t], and its reader finds the template [f]. *)
Definition carries (g : N -> bool) (r : res (option ie2)) (t : N) (f : tft) : Prop :=
  exists i, r = Ok (Some i) /\ i2_type i = t /\ i2_payload i = tft_octets f /\ acc_tft g i = Ok f.
(** fields in range; at most 15 filters or identifiers; no parameters or an odd number; the
    template fits in an IE *)
Definition ops_ok (fs : list pfilter) (ids : bytes) (ps : list param) : Prop :=
  Forall filter_ok fs /\ bytes_ok ids /\ Forall param_ok ps /\ (List.length fs + len ids < 16)%nat /\
  (ps = [] \/ Nat.odd (List.length ps) = true) /\ (len (tft_octets (Tft 0 fs ids ps)) < N.to_nat 65536)%nat.

Lemma octets_len op fs ids ps : len (tft_octets (Tft op fs ids ps)) = len (tft_octets (Tft 0 fs ids ps)).
Proof. unfold tft_octets, body_octets, params_octets. cbn [tf_filters tf_ids tf_params tf_op]. rewrite !app_length. reflexivity. Qed.
Lemma carries_both g op fs ids ps : op < 8 -> ops_ok fs ids ps -> (with_filters op = false -> fs = []) -> (op <> 5 -> ids = []) ->
  carries g (new_bearer_tft g op (map Some fs) ids (map Some ps)) 84 (Tft op fs ids ps) /\
  carries g (new_tad g op (map Some fs) ids (map Some ps)) 85 (Tft op fs ids ps).
Proof.
  intros Ho (F & I & P & C & A & L) Hf Hi.
  assert (body_ok (Tft op fs ids ps)) as B by (repeat split; assumption).
  assert (announced (Tft op fs ids ps)) as A' by exact A.
  rewrite <- (octets_len op) in L.
  destruct (C31_tft_ies_partial g (Tft op fs ids ps) B A' L) as [(i & M & R) (j & N & S)]. unfold made in M, N.
  split; [exists i|exists j]; intuition (subst; auto).
Qed.

(** The operations of TS 24.008 10.5.6.12: 1 create, 2 delete the template, 3 add filters, 4
    replace filters, 5 delete filters, 6 none. *)
Theorem C31_operations_partial : forall g fs ids ps, ops_ok fs [] ps -> ops_ok [] ids ps ->
  let sf := map Some fs in let sp := map Some ps in
  (carries g (op_create (new_bearer_tft g) sf sp) 84 (Tft 1 fs [] ps) /\ carries g (op_create (new_tad g) sf sp) 85 (Tft 1 fs [] ps)) /\
  (carries g (op_delete_tft (new_bearer_tft g) sp) 84 (Tft 2 [] [] ps) /\ carries g (op_delete_tft (new_tad g) sp) 85 (Tft 2 [] [] ps)) /\
  (carries g (op_add (new_bearer_tft g) sf sp) 84 (Tft 3 fs [] ps) /\ carries g (op_add (new_tad g) sf sp) 85 (Tft 3 fs [] ps)) /\
  (carries g (op_replace (new_bearer_tft g) sf sp) 84 (Tft 4 fs [] ps) /\ carries g (op_replace (new_tad g) sf sp) 85 (Tft 4 fs [] ps)) /\
  (carries g (op_delete_filters (new_bearer_tft g) ids sp) 84 (Tft 5 [] ids ps) /\ carries g (op_delete_filters (new_tad g) ids sp) 85 (Tft 5 [] ids ps)) /\
  (carries g (op_none (new_bearer_tft g) sp) 84 (Tft 6 [] [] ps) /\ carries g (op_none (new_tad g) sp) 85 (Tft 6 [] [] ps)).
Proof.
  intros g fs ids ps H K. cbv zeta.
  assert (ops_ok [] [] ps) as O.
  { destruct K as (_ & _ & P & _ & A & L). split; [constructor|]. split; [constructor|]. split; [exact P|]. split; [cbn; lia|]. split; [exact A|]. revert L.
    unfold tft_octets, body_octets, params_octets. cbn [tf_filters tf_ids tf_params tf_op]. rewrite !app_length. cbn [flat_map List.length app]. lia. }
  split; [|split; [|split; [|split; [|split]]]].
  - apply (carries_both g 1 fs [] ps); [reflexivity|exact H|discriminate|reflexivity].
  - apply (carries_both g 2 [] [] ps); [reflexivity|exact O|reflexivity|reflexivity].
  - apply (carries_both g 3 fs [] ps); [reflexivity|exact H|discriminate|reflexivity].
  - apply (carries_both g 4 fs [] ps); [reflexivity|exact H|discriminate|reflexivity].
  - apply (carries_both g 5 [] ids ps); [reflexivity|exact K|reflexivity|intros D; now elim D].
  - apply (carries_both g 6 [] [] ps); [reflexivity|exact O|reflexivity|reflexivity].
Qed.
Example C31_operations_example :
  let f := PFilter 1 2 3 2 [Comp 48 [6]] in ops_ok [f] [] [] /\ ops_ok [] [1; 2] [Param 3 1 [7]] /\
  (forall g, exists i, op_create (new_bearer_tft g) [Some f] [] = Ok (Some i) /\ i2_payload i = [33; 18; 3; 2; 48; 6]) /\
  (forall g, exists i, op_delete_filters (new_bearer_tft g) [1; 2] [Some (Param 3 1 [7])] = Ok (Some i) /\ i2_payload i = [178; 1; 2; 3; 1; 7]).
Proof.
  cbv zeta. split.
  { split; [repeat constructor|]. split; [constructor|]. split; [constructor|]. split; [cbn; lia|]. split; [now left|unfold tft_octets; cbn -[N.to_nat]; lia]. }
  split.
  { split; [constructor|]. split; [repeat constructor|]. split; [repeat constructor|]. split; [cbn; lia|]. split; [now right|unfold tft_octets; cbn -[N.to_nat]; lia]. }
  split; intros g; (eexists; split; [vm_compute; reflexivity|vm_compute; reflexivity]).
Qed.
Print Assumptions C31_operations_partial.
