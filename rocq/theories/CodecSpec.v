(** What the typed IEs look like on the wire (TS 29.274 clause 8 and TS 24.008), as octet
    sequences, and what it means for a pair of functions to implement such a layout.  Nothing
    here refers to the marshalling or parsing functions of the model. *)
From Coq Require Import String.
From Verif Require Import Base V2IE V2IESpec V2Codec.
Open Scope N_scope.
Open Scope list_scope.

(** A layout [oct] over the values satisfying [wf] is implemented by [marshal] and [parse]
    when marshalling writes exactly the layout, parsing the layout followed by anything gives
    the value back, parsing accepts nothing else ([clear] erases spare bits), and no input
    makes it panic. *)
Definition exact_codec {A} (wf : A -> Prop) (oct : A -> bytes) (clear : bytes -> bytes)
    (marshal : A -> res bytes) (parse : bytes -> res A) : Prop :=
  (forall a, wf a -> marshal a = Ok (oct a)) /\
  (forall a rest, wf a -> bytes_ok rest -> parse (oct a ++ rest) = Ok a) /\
  (forall b a, bytes_ok b -> parse b = Ok a -> wf a /\ exists rest, clear b = oct a ++ rest) /\
  (forall b, parse b <> Panic).
(** the same for a layout that extends to the end of the input *)
Definition closed_codec {A} (wf : A -> Prop) (oct : A -> bytes) (clear : bytes -> bytes)
    (marshal : A -> res bytes) (parse : bytes -> res A) : Prop :=
  (forall a, wf a -> marshal a = Ok (oct a)) /\
  (forall a, wf a -> parse (oct a) = Ok a) /\
  (forall b a, bytes_ok b -> parse b = Ok a -> wf a /\ clear b = oct a) /\
  (forall b, parse b <> Panic).
(** no spare bits *)
Definition no_spare (b : bytes) : bytes := b.
(** mask of the first octet *)
Definition clear_first (mask : N) (b : bytes) : bytes :=
  match b with x :: r => N.land x mask :: r | [] => [] end.

(** A one-octet number, a four-octet address, ... *)
Definition octets (n : nat) (b : bytes) : Prop := len b = n /\ bytes_ok b.
Definition opt_octets (n : nat) (o : option bytes) : Prop :=
  match o with Some b => octets n b | None => True end.
Definition opt_bytes (o : option bytes) : bytes := match o with Some b => b | None => [] end.
Definition present {A} (o : option A) : bool := match o with Some _ => true | None => false end.

(** A constructor produced an IE of the given type, instance 0, whose value is [v]; being
    [wf2], it marshals and parses as every IE does (C06, C07). *)
Definition made (g : N -> bool) (r : res (option ie2)) (t : N) (v : bytes) (i : ie2) : Prop :=
  r = Ok (Some i) /\ i2_type i = t /\ i2_instance i = 0 /\ i2_payload i = v /\
  (g t = false -> wf2 g i).

(** ** F-TEID (clause 8.22): V4 V6 and the interface type in one octet, TEID, addresses *)
Definition fteid_octets (ift teid : N) (v4 v6 : option bytes) : bytes :=
  [128 * b2n (present v4) + 64 * b2n (present v6) + ift] ++ enc32 teid ++ opt_bytes v4 ++ opt_bytes v6.
Definition fteid_ok (f : fteid) : Prop :=
  ft_if f < 64 /\ ft_teid f < 2 ^ 32 /\ opt_octets 4 (ft_v4 f) /\ opt_octets 16 (ft_v6 f) /\
  ft_flags f = 128 * b2n (present (ft_v4 f)) + 64 * b2n (present (ft_v6 f)).

(** ** PAA (clause 8.14): PDN type, then the address(es); type 1 IPv4, 2 IPv6, 3 both, others
    carry nothing *)
Definition paa_octets (f : paa) : bytes :=
  match paa_type f with
  | 1 => [1] ++ opt_bytes (paa_v4 f)
  | 2 => [2] ++ [paa_prefix f] ++ opt_bytes (paa_v6 f)
  | 3 => [3] ++ [paa_prefix f] ++ opt_bytes (paa_v6 f) ++ opt_bytes (paa_v4 f)
  | t => [t]
  end.
Definition is_octets (n : nat) (o : option bytes) : Prop := exists b, o = Some b /\ octets n b.
Definition paa_ok (f : paa) : Prop :=
  paa_type f < 8 /\ paa_prefix f < 256 /\
  match paa_type f with
  | 1 => is_octets 4 (paa_v4 f) /\ paa_v6 f = None /\ paa_prefix f = 0
  | 2 => paa_v4 f = None /\ is_octets 16 (paa_v6 f)
  | 3 => is_octets 4 (paa_v4 f) /\ is_octets 16 (paa_v6 f)
  | _ => paa_v4 f = None /\ paa_v6 f = None /\ paa_prefix f = 0
  end.

(** ** Data forwarding (clauses 8.25, 8.26) *)
Definition s1udf_octets (f : s1udf) : bytes :=
  [s1_ebi f] ++ [N.of_nat (len (s1_addr f))] ++ s1_addr f ++ enc32 (s1_teid f).
Definition s1udf_ok (f : s1udf) : Prop :=
  s1_ebi f < 16 /\ (len (s1_addr f) < 256)%nat /\ s1_alen f = N.of_nat (len (s1_addr f)) /\
  bytes_ok (s1_addr f) /\ s1_teid f < 2 ^ 32.
Definition s103_octets (f : s103) : bytes :=
  [N.of_nat (len (s3_addr f))] ++ s3_addr f ++ enc32 (s3_key f) ++ [N.of_nat (len (s3_ebis f))] ++ s3_ebis f.
Definition s103_ok (f : s103) : Prop :=
  (len (s3_addr f) < 256)%nat /\ s3_alen f = N.of_nat (len (s3_addr f)) /\ bytes_ok (s3_addr f) /\
  s3_key f < 2 ^ 32 /\ (len (s3_ebis f) < 256)%nat /\ s3_num f = N.of_nat (len (s3_ebis f)) /\
  bytes_ok (s3_ebis f).

(** ** QoS: AMBR (8.7), ARP (8.86), Bearer QoS (8.15), Flow QoS (8.16); rates are five octets *)
Definition ambr_octets (f : N * N) : bytes := enc32 (fst f) ++ enc32 (snd f).
Definition ambr_ok (f : N * N) : Prop := fst f < 2 ^ 32 /\ snd f < 2 ^ 32.
(** spare, PCI, four bits of priority level, spare, PVI *)
Definition arp_spec (pci pl pvi : N) : N := 64 * pci + 4 * pl + pvi.
Definition bqos_octets (f : bqos) : bytes :=
  [bq_arp f; bq_qci f] ++ enc40 (bq_umbr f) ++ enc40 (bq_dmbr f) ++ enc40 (bq_ugbr f) ++ enc40 (bq_dgbr f).
Definition bqos_ok (f : bqos) : Prop :=
  bq_arp f < 256 /\ bq_qci f < 256 /\ bq_umbr f < 2 ^ 40 /\ bq_dmbr f < 2 ^ 40 /\
  bq_ugbr f < 2 ^ 40 /\ bq_dgbr f < 2 ^ 40.
Definition fqos_octets (f : fqos) : bytes :=
  [fq_qci f] ++ enc40 (fq_umbr f) ++ enc40 (fq_dmbr f) ++ enc40 (fq_ugbr f) ++ enc40 (fq_dgbr f).
Definition fqos_ok (f : fqos) : Prop :=
  fq_qci f < 256 /\ fq_umbr f < 2 ^ 40 /\ fq_dmbr f < 2 ^ 40 /\ fq_ugbr f < 2 ^ 40 /\ fq_dgbr f < 2 ^ 40.

(** ** Cause (clause 8.4): the value, the PCE, BCE and CS bits, and the type of the offending
    IE followed by a zero length and a zero instance *)
Definition cause_octets (cause pce bce cs : N) (offending : option N) : bytes :=
  [cause; 4 * pce + 2 * bce + cs] ++ match offending with Some t => [t; 0; 0; 0] | None => [] end.

(** ** Bearer Flags (8.32), MBMS Flags (8.102) *)
Definition bearer_flags_octet (asi vind vb ppc : N) : N := 8 * asi + 4 * vind + 2 * vb + ppc.

(** ** RAN/NAS Cause (8.103): protocol type and cause type, then the cause *)
Definition ran_nas_octets (f : N * N * bytes) : bytes := [16 * fst (fst f) + snd (fst f)] ++ snd f.
Definition ran_nas_ok (f : N * N * bytes) : Prop :=
  fst (fst f) < 16 /\ snd (fst f) < 16 /\ bytes_ok (snd f) /\ snd f <> [].

(** ** IE type codes (table 8.1-1) of the IEs that hold one value *)

Open Scope string_scope.
Definition ie_type_code : list (string * N) := [
  ("Recovery", 3); ("AccessPointName", 71); ("RATType", 82); ("TMSI", 88);
  ("ChargingCharacteristics", 95); ("PDNType", 99); ("ProcedureTransactionID", 100);
  ("PacketTMSI", 111); ("HopCounter", 113); ("PortNumber", 126); ("APNRestriction", 127);
  ("SelectionMode", 128); ("NodeType", 135); ("FullyQualifiedDomainName", 136); ("RFSPIndex", 144);
  ("CSGMembershipIndication", 148); ("ServiceIndicator", 149); ("DetachType", 150);
  ("LocalDistinguishedName", 151); ("NodeFeatures", 152); ("IntegerNumber", 187)].
Close Scope string_scope.
