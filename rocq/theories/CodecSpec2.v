(** Layouts of further typed GTPv2 IEs (continues CodecSpec.v). *)
From Coq Require Import String.
From Verif Require Import Base V2IE V2IESpec CodecSpec.
Open Scope string_scope.
Open Scope N_scope.
Open Scope list_scope.

(** ** Indication (TS 29.274 clause 8.12): the flags, first octet first, bit 8 first; the
    names are those of the Has-accessors, the seven spare bits of octet 13 have none *)
Definition ind_flags : list string := [
  "DAF"; "DTF"; "HI"; "DFI"; "OI"; "ISRSI"; "ISRAI"; "SGWCI";
  "SQCI"; "UIMSI"; "CFSI"; "CRSI"; "PS"; "PT"; "SI"; "MSV";
  "RETLOC"; "PBIC"; "SRNI"; "S6AF"; "S4AF"; "MBMDT"; "ISRAU"; "CCRSI";
  "CPRAI"; "ARRL"; "PPOF"; "PPON"; "PPSI"; "CSFBI"; "CLII"; "CPSR";
  "NSI"; "UASI"; "DTCI"; "BDWI"; "PSCI"; "PCRI"; "AOSI"; "AOPI";
  "ROAAI"; "EPCOSI"; "CPOPCI"; "PMTMSI"; "S11TF"; "PNSI"; "UNACCSI"; "WPMSI";
  "5GSNN26"; "REPREFI"; "5GSIWK"; "EEVRSI"; "LTEMUI"; "LTEMPI"; "ENBCRSI"; "TSPCMI";
  "CSRMFI"; "MTEDTN"; "MTEDTA"; "N5GNMI"; "5GCNRS"; "5GCNRI"; "5SRHOI"; "ETHPDN";
  ""; ""; ""; ""; ""; ""; ""; "EMCI"].
(** eight bits to an octet, most significant first *)
Fixpoint pack (bits : list N) : bytes :=
  match bits with
  | a :: b :: c :: d :: e :: f :: g :: h :: r =>
      (128 * a + 64 * b + 32 * c + 16 * d + 8 * e + 4 * f + 2 * g + h) :: pack r
  | _ => []
  end.
(** flag number [k] of an Indication value; absent octets count as zero *)
Definition flag_at (k : nat) (v : bytes) : bool :=
  match nth_error v (k / 8) with Some x => N.testbit x (N.of_nat (7 - k mod 8)) | None => false end.

(** ** Protocol Configuration Options (TS 24.008 10.5.6.3): extension bit and configuration
    protocol, then containers (identifier, length, contents) *)
Definition container_octets (id : N) (contents : bytes) : bytes :=
  enc16 id ++ [N.of_nat (len contents)] ++ contents.
Definition pco_octets (proto : N) (l : list (N * bytes)) : bytes :=
  [128 + proto] ++ flat_map (fun c => container_octets (fst c) (snd c)) l.
Definition container_val_ok (c : N * bytes) : Prop :=
  fst c < 2 ^ 16 /\ (len (snd c) < 256)%nat /\ bytes_ok (snd c).
(** PPP packet (RFC 1661), PAP request (RFC 1334), CHAP value (RFC 1994), IPCP option (RFC 1332) *)
Definition ppp_octets (code id : N) (data : bytes) : bytes :=
  [code; id] ++ enc16 (N.of_nat (4 + len data)) ++ data.
Definition pap_octets (id pw : bytes) : bytes :=
  [N.of_nat (len id)] ++ id ++ [N.of_nat (len pw)] ++ pw.
Definition chap_octets (v name : bytes) : bytes := [N.of_nat (len v)] ++ v ++ name.
Definition ipcp_octets (t : N) (data : bytes) : bytes := [t; N.of_nat (2 + len data)] ++ data.
