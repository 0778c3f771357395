(** Property C37: accessors of GTPv2 IEs on arbitrary payloads.  Specification: AccSpec.v (the
    accessors by name). *)
From Coq Require Import String.
From Verif Require Import Base BaseLemmas V2IE V2IESpec V2IEProofs V2Codec V2Codec2 V2Uli AccSpec V2AccProofs PropertiesBase.
Open Scope N_scope.
Open Scope list_scope.

(** whatever the type, the payload and the children *)
Theorem C37_v2_accessors : forall g i, bytes_ok (i2_payload i) -> Forall (fun a => snd a i <> Panic) (accessors g).
Proof. exact accessors_safe. Qed.
(** every IE of every buffer the parser accepts *)
Theorem C37_v2_parsed : forall g b ies, bytes_ok b -> multi2 g b = Ok ies ->
  Forall (fun i => Forall (fun a => snd a i <> Panic) (accessors g)) ies.
Proof.
  intros g b ies H E. destruct (multi2_inv g b ies H E) as [W _]. eapply Forall_impl; [|exact W].
  intros i Wi. apply accessors_safe. now apply wf2_payload_ok with (g := g).
Qed.
(** the exception: GUTI on a three-octet payload that ends where its buffer ends *)
Theorem C37_v2_guti_refuted : forall spare i,
  acc_guti spare i = Panic <-> i2_type i = 117 /\ len (i2_payload i) = 3%nat /\ spare = [].
Proof. exact guti_panics. Qed.

Example C37_case :
  List.length (accessors dg) = 168%nat /\
  (exists i, parse2 dg [117; 0; 3; 0; 2; 248; 57] = Ok i /\ i2_payload i = [2; 248; 57] /\ acc_guti [] i = Panic /\
     option_map (fun a => snd a i) (find (fun a => String.eqb (fst a) "MCC") (accessors dg)) = Some (Ok tt) /\
     option_map (fun a => snd a i) (find (fun a => String.eqb (fst a) "MTMSI") (accessors dg)) = Some (Err EUnexpectedEOF)).
Proof. split; [vm_compute; reflexivity|]. eexists. split; [vm_compute; reflexivity|]. repeat split. Qed.
Print Assumptions C37_v2_accessors.
Print Assumptions C37_v2_parsed.
Print Assumptions C37_v2_guti_refuted.
