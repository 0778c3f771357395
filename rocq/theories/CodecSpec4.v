(** Layouts of identity and timer IEs (continues CodecSpec3.v). *)
From Coq Require Import ZArith.
From Verif Require Import Base Utils V2IE V2IESpec V2Codec V2Codec2 CodecSpec.
Open Scope N_scope.
Open Scope list_scope.

(** ** FQ-CSID (TS 29.274 clause 8.62): PDN connection set identifiers, two octets each *)
Definition csid_octets (l : list N) : bytes := flat_map enc16 l.
(** the type and the octets of a node identifier: 0 IPv4, 1 IPv6, 2 four octets given in hex *)
Definition node_octets (n : node_id) (t : N) (o : bytes) : Prop :=
  match n with
  | NodeIP ip => (to4 (Some ip) = Some o /\ t = 0) \/ (to4 (Some ip) = None /\ octets 16 ip /\ o = ip /\ t = 1)
  | NodeHex s => hex_decode s = Ok o /\ len o = 4%nat /\ t = 2
  end.

(** ** Timers, in nanoseconds *)
Open Scope Z_scope.
(** GPRS timer units (clause 8.87): unit code and length *)
Definition timer_units : list (N * Z) :=
  [(0%N, 2 * 1000000000); (1%N, 60 * 1000000000); (2%N, 600 * 1000000000);
   (3%N, 3600 * 1000000000); (4%N, 36000 * 1000000000)].
(** the durations five bits and a unit can express *)
Definition timer_expressible (d : Z) : Prop :=
  exists c u k, In (c, u) timer_units /\ 0 <= k <= 31 /\ d = k * u.
(** UE time zone (clause 8.44, TS 24.008 10.5.3.8): quarters of an hour, two semi-octets with
    the tens in the low one, bit 4 for the sign *)
Definition tz_spec (k : Z) : N :=
  Z.to_N (16 * (Z.abs k mod 10) + Z.abs k / 10 + (if k <? 0 then 8 else 0)).
(** seconds between 1900-01-01 and 1970-01-01 *)
Definition ntp_unix : Z := 70 * 365 * 86400 + 17 * 86400.
