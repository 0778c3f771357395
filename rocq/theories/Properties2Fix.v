(** Properties C14-C16 and C21 for the three GTPv2 messages left out of Properties2Msg.v
    because they hold only under a condition: CreateSessionRequest (whose MarshalTo forgets
    to advance past the private extension), CreateBearerResponse (whose parser drops IEs the
    constructor keeps) and ContextResponse (whose MarshalTo forgets three fields). *)
From Coq Require Import String Permutation.
From Verif Require Import Base BaseLemmas V2IE V2IESpec V2IEProofs V2Header V2HeaderProofs
  MsgModel MsgProofs MsgProofs2 MsgProofs3 GenericMsg MsgSpec Msgs2Gen V2Msg V2MsgProofs MsgRepair PropertiesBase Properties2Msg.
Open Scope string_scope.
Open Scope N_scope.
Open Scope list_scope.

(** ** C14 and C21: size, layout and MarshalTo *)
Theorem C14_v2_create_session_request : forall g,
  let d := d_CreateSessionRequest in
  exists order, Permutation order (map fst (md_fields d)) /\
  forall m, typed_fields d (m_fs m) -> Forall (wf2 g) (present (m_fs m)) -> h2_ok (m_hdr m) ->
  fget (m_fs m) "PrivateExtension" = [] \/ fget (m_fs m) "AdditionalIEs" = [] ->
  let h := m_hdr m in
  let l := ies_of order (m_fs m) in
  let n := (h2_base h + len (flat_map (wire2 g) l))%nat in
  Permutation l (present (m_fs m)) /\ v2_len g d m = Ok n /\
  exists w m1, v2_marshal g d m = Ok (w, m1) /\ len w = n /\ m_fs m1 = m_fs m /\
    (forall b, (n <= len b)%nat -> v2_mto g d m b = Ok (w ++ skipn n b, m1)) /\
    (N.of_nat n < 65540 ->
     w = v2_octets (h2_flags h) (h2_type h) (h2_teid h) (h2_seq h) (h2_spare h) (flat_map (wire2 g) l)).
Proof.
  intros g. cbv zeta. destruct (ok_parts _ csr_ok) as (D1 & D2 & D3 & D4 & D5).
  exists (order_of csr). split; [apply (order_perm csr D2 D4)|]. intros m Ht Hw Hh Hone.
  destruct (repair_layout g d_CreateSessionRequest csr eq_refl eq_refl eq_refl m D2 D5 D4 (csr_marshal g _ Hone) Ht Hw Hh) as (A & B).
  split; [exact A|exact B].
Qed.
Example C14_create_session_request_example : exists m w m1,
  v2_new dg d_CreateSessionRequest 1 7 [Some x_ebi; Some x_unknown] = Ok m /\
  fget (m_fs m) "PrivateExtension" = [] /\ fget (m_fs m) "AdditionalIEs" = [Some x_unknown] /\
  v2_marshal dg d_CreateSessionRequest m = Ok (w, m1) /\
  w = [72; 32; 0; 19; 0; 0; 0; 1; 0; 0; 7; 0; 73; 0; 1; 0; 5; 250; 0; 2; 0; 8; 9].
Proof.
  ok_val (v2_new dg d_CreateSessionRequest 1 7 [Some x_ebi; Some x_unknown]) ltac:(fun m => exists m;
  ok_pair (v2_marshal dg d_CreateSessionRequest m) ltac:(fun w m1 => exists w, m1)). done.
Qed.
Theorem C14_v2_context_response : forall g,
  let d := d_ContextResponse in
  exists order, Permutation order (map fst (md_fields d)) /\
  forall m, typed_fields d (m_fs m) -> Forall (wf2 g) (present (m_fs m)) -> h2_ok (m_hdr m) ->
  fget (m_fs m) "MonitoringEventExtensionInformation" = [] ->
  fget (m_fs m) "SubscribedAdditionalRRMPolicyIndex" = [] -> fget (m_fs m) "AdditionalRRMPolicyIndexInUse" = [] ->
  let h := m_hdr m in
  let l := ies_of order (m_fs m) in
  let n := (h2_base h + len (flat_map (wire2 g) l))%nat in
  Permutation l (present (m_fs m)) /\ v2_len g d m = Ok n /\
  exists w m1, v2_marshal g d m = Ok (w, m1) /\ len w = n /\ m_fs m1 = m_fs m /\
    (forall b, (n <= len b)%nat -> v2_mto g d m b = Ok (w ++ skipn n b, m1)) /\
    (N.of_nat n < 65540 ->
     w = v2_octets (h2_flags h) (h2_type h) (h2_teid h) (h2_seq h) (h2_spare h) (flat_map (wire2 g) l)).
Proof.
  intros g. cbv zeta. destruct (ok_parts _ ctx_ok) as (D1 & D2 & D3 & D4 & D5).
  exists (order_of ctx). split; [apply (order_perm ctx D2 D4)|]. intros m Ht Hw Hh F1 F2 F3.
  assert (Hn : none_forgotten (m_fs m)) by (intros f [<-|[<-|[<-|[]]]]; assumption).
  destruct (repair_layout g d_ContextResponse ctx eq_refl eq_refl eq_refl m D2 D5 D4 (ctx_marshal g _ Hn) Ht Hw Hh) as (A & B).
  split; [exact A|exact B].
Qed.
Definition x_mm := IE2 107 1 0 [7] [].
Definition x_imsi := IE2 1 2 0 [33; 67] [].
Example C14_context_response_example : exists m w m1,
  v2_new dg d_ContextResponse 1 7 [Some x_mm; Some x_cause; Some x_imsi] = Ok m /\
  fget (m_fs m) "AdditionalIEs" = [Some x_mm] /\
  v2_marshal dg d_ContextResponse m = Ok (w, m1) /\
  w = [72; 131; 0; 25; 0; 0; 0; 1; 0; 0; 7; 0; 2; 0; 2; 0; 16; 0; 1; 0; 2; 0; 33; 67; 107; 0; 1; 0; 7].
Proof.
  ok_val (v2_new dg d_ContextResponse 1 7 [Some x_mm; Some x_cause; Some x_imsi]) ltac:(fun m => exists m;
  ok_pair (v2_marshal dg d_ContextResponse m) ltac:(fun w m1 => exists w, m1)). done.
Qed.

(** ** C15: construct, marshal, parse *)
Theorem C15_v2_create_session_request : forall g teid seq ies, teid < 2 ^ 32 -> seq < 2 ^ 24 ->
  Forall (wf2 g) (nonnil ies) ->
  let d := d_CreateSessionRequest in
  exists m, v2_new g d teid seq ies = Ok m /\ typed_fields d (m_fs m) /\
    (fget (m_fs m) "PrivateExtension" = [] \/ fget (m_fs m) "AdditionalIEs" = [] ->
     forall n, v2_len g d m = Ok n -> (12 <= n)%nat -> N.of_nat n < 65536 ->
     exists b m1, v2_marshal g d m = Ok (b, m1) /\ len b = n /\
       v2_parse g b = Ok (d, m1) /\ m_fs m1 = m_fs m /\
       h2_seq (m_hdr m1) = seq /\ h2_get_teid (m_hdr m1) = teid /\ ts29274 (h2_type (m_hdr m1)) = "CreateSessionRequest").
Proof.
  intros g teid seq ies Ht Hs Hw. cbv zeta. destruct (ok_parts _ csr_ok) as (D1 & D2 & D3 & D4 & D5).
  destruct (repair_roundtrip g d_CreateSessionRequest csr eq_refl eq_refl eq_refl eq_refl eq_refl eq_refl teid seq ies csr_in Ht Hs D1 D3 D4 D5 Hw
    eq_refl (fun _ _ => eq_refl) (csr_parse g)) as (m & M & T & R).
  exists m. split; [exact M|]. split; [exact T|]. intros Hone. exact (R (csr_marshal g _ Hone)).
Qed.
Theorem C15_v2_create_bearer_response : forall g teid seq ies, teid < 2 ^ 32 -> seq < 2 ^ 24 ->
  Forall (wf2 g) (nonnil ies) ->
  (forall i, In i (nonnil ies) ->
     (i2_type i = 126 -> i2_instance i <= 1) /\ (i2_type i = 132 -> i2_instance i <= 3) /\ (i2_type i = 169 -> i2_instance i <= 1) /\
     (i2_type i = 179 -> i2_instance i = 1) /\ (i2_type i = 180 -> i2_instance i <= 2)) ->
  let d := d_CreateBearerResponse in
  exists m, v2_new g d teid seq ies = Ok m /\ typed_fields d (m_fs m) /\
    (forall n, v2_len g d m = Ok n -> (12 <= n)%nat -> N.of_nat n < 65536 ->
     exists b m1, v2_marshal g d m = Ok (b, m1) /\ len b = n /\
       v2_parse g b = Ok (d, m1) /\ m_fs m1 = m_fs m /\
       h2_seq (m_hdr m1) = seq /\ h2_get_teid (m_hdr m1) = teid /\ ts29274 (h2_type (m_hdr m1)) = "CreateBearerResponse").
Proof.
  intros g teid seq ies Ht Hs Hw Hk. cbv zeta. destruct (ok_parts _ cbr_ok) as (D1 & D2 & D3 & D4 & D5).
  destruct (repair_roundtrip g d_CreateBearerResponse cbr eq_refl eq_refl eq_refl eq_refl eq_refl eq_refl teid seq ies cbr_in Ht Hs D1 D3 D4 D5 Hw
    (cbr_new g ies Hw (proj2 (Forall_forall _ _) Hk)) (fun _ _ => eq_refl) (fun _ _ => eq_refl)) as (m & M & T & R).
  exists m. split; [exact M|]. split; [exact T|]. refine (R _). split; [reflexivity|intros; reflexivity].
Qed.
Theorem C15_v2_context_response : forall g teid seq ies, teid < 2 ^ 32 -> seq < 2 ^ 24 ->
  Forall (wf2 g) (nonnil ies) ->
  (forall i, In i (nonnil ies) -> i2_type i <> 206 /\ (i2_type i = 207 -> 1 < i2_instance i)) ->
  let d := d_ContextResponse in
  exists m, v2_new g d teid seq ies = Ok m /\ typed_fields d (m_fs m) /\
    (forall n, v2_len g d m = Ok n -> (12 <= n)%nat -> N.of_nat n < 65536 ->
     exists b m1, v2_marshal g d m = Ok (b, m1) /\ len b = n /\
       v2_parse g b = Ok (d, m1) /\ m_fs m1 = m_fs m /\
       h2_seq (m_hdr m1) = seq /\ h2_get_teid (m_hdr m1) = teid /\ ts29274 (h2_type (m_hdr m1)) = "ContextResponse").
Proof.
  intros g teid seq ies Ht Hs Hw Hk. cbv zeta. destruct (ok_parts _ ctx_ok) as (D1 & D2 & D3 & D4 & D5).
  destruct (ctx_new g ies Hw (proj2 (Forall_forall _ _) Hk)) as [N1 N2].
  destruct (repair_roundtrip g d_ContextResponse ctx eq_refl eq_refl eq_refl eq_refl eq_refl eq_refl teid seq ies ctx_in Ht Hs D1 D3 D4 D5 Hw
    N1 (fun fs E => ctx_lens g fs (N2 fs E)) (ctx_parse g)) as (m & M & T & R).
  exists m. split; [exact M|]. split; [exact T|]. refine (R _). apply ctx_marshal, N2.
  unfold v2_new, msg_new in M. apply bind_ok_inv in M. destruct M as (fs & E & M). rewrite E. f_equal.
  unfold msg_set_length in M. apply bind_ok_inv in M. destruct M as (n & _ & M). injection M as <-. reflexivity.
Qed.
Example C15_repaired_examples :
  (exists m b m1, v2_new dg d_CreateSessionRequest 1 7 [Some x_private; None; Some x_ebi] = Ok m /\
    v2_marshal dg d_CreateSessionRequest m = Ok (b, m1) /\ v2_parse dg b = Ok (d_CreateSessionRequest, m1) /\ len b = 24%nat) /\
  (exists m b m1, v2_new dg d_CreateBearerResponse 1 7 [Some (IE2 132 1 2 [7] []); Some x_cause] = Ok m /\
    v2_marshal dg d_CreateBearerResponse m = Ok (b, m1) /\ v2_parse dg b = Ok (d_CreateBearerResponse, m1) /\
    fget (m_fs m1) "EPDGFQCSID" = [Some (IE2 132 1 2 [7] [])]) /\
  (exists m b m1, v2_new dg d_ContextResponse 1 7 [Some x_mm; Some x_cause] = Ok m /\
    v2_marshal dg d_ContextResponse m = Ok (b, m1) /\ v2_parse dg b = Ok (d_ContextResponse, m1) /\
    fget (m_fs m1) "AdditionalIEs" = [Some x_mm]).
Proof.
  split; [|split].
  - ok_val (v2_new dg d_CreateSessionRequest 1 7 [Some x_private; None; Some x_ebi]) ltac:(fun m => exists m;
    ok_pair (v2_marshal dg d_CreateSessionRequest m) ltac:(fun w m1 => exists w, m1)). done.
  - ok_val (v2_new dg d_CreateBearerResponse 1 7 [Some (IE2 132 1 2 [7] []); Some x_cause]) ltac:(fun m => exists m;
    ok_pair (v2_marshal dg d_CreateBearerResponse m) ltac:(fun w m1 => exists w, m1)). done.
  - ok_val (v2_new dg d_ContextResponse 1 7 [Some x_mm; Some x_cause]) ltac:(fun m => exists m;
    ok_pair (v2_marshal dg d_ContextResponse m) ltac:(fun w m1 => exists w, m1)). done.
Qed.

(** ** C16: parse, marshal, parse, for every message *)
Theorem C16_v2_remarshal_all : forall g b d m, bytes_ok b -> N.of_nat (len b) < 65536 -> v2_parse g b = Ok (d, m) ->
  (md_name d = "CreateSessionRequest" -> fget (m_fs m) "PrivateExtension" = [] \/ fget (m_fs m) "AdditionalIEs" = []) ->
  (h2_has_teid (m_hdr m) = true \/ present (m_fs m) <> []) ->
  exists b' m1, v2_marshal g d m = Ok (b', m1) /\ v2_parse g b' = Ok (d, m1) /\ m_fs m1 = m_fs m /\
    (len b' <= len b)%nat /\
    h2_flags (m_hdr m1) = h2_flags (m_hdr m) /\ h2_type (m_hdr m1) = h2_type (m_hdr m) /\
    h2_teid (m_hdr m1) = h2_teid (m_hdr m) /\ h2_seq (m_hdr m1) = h2_seq (m_hdr m) /\
    h2_spare (m_hdr m1) = h2_spare (m_hdr m).
Proof.
  intros g b d m Hb Hl Hp Hone Hne. destruct (v2_parse_parts g b d m Hp) as (t & E1 & Ed & E2 & Ep).
  destruct (String.eqb_spec (md_name d) "CreateSessionRequest") as [N1|N1].
  - assert (Hd : d = d_CreateSessionRequest) by (rewrite Ed in N1 |- *; exact (struct2_named t _ csr_in N1)).
    clear Ed. subst d. destruct (ok_parts _ csr_ok) as (D1 & D2 & D3 & D4 & D5).
    apply (repair_remarshal g d_CreateSessionRequest csr eq_refl eq_refl eq_refl eq_refl eq_refl eq_refl b m Hb Hl Hp D1 D4 D5 (csr_parse g)
      (csr_marshal g _ (Hone N1)) Hne).
  - destruct (String.eqb_spec (md_name d) "ContextResponse") as [N2|N2].
    + assert (Hd : d = d_ContextResponse) by (rewrite Ed in N2 |- *; exact (struct2_named t _ ctx_in N2)).
      clear Ed. subst d. destruct (ok_parts _ ctx_ok) as (D1 & D2 & D3 & D4 & D5).
      apply (repair_remarshal g d_ContextResponse ctx eq_refl eq_refl eq_refl eq_refl eq_refl eq_refl b m Hb Hl Hp D1 D4 D5 (ctx_parse g)
        (ctx_marshal g _ (ctx_parsed g b m Hb Ep)) Hne).
    + apply C16_v2_remarshal; assumption.
Qed.
Example C16_all_example : exists m b' m1,
  v2_parse dg [72; 131; 0; 24; 0; 0; 0; 1; 0; 0; 7; 0; 207; 0; 1; 0; 8; 107; 0; 1; 0; 7; 2; 0; 2; 0; 16; 0] = Ok (d_ContextResponse, m) /\
  fget (m_fs m) "AdditionalIEs" = [Some (IE2 207 1 0 [8] []); Some x_mm] /\
  v2_marshal dg d_ContextResponse m = Ok (b', m1) /\
  b' = [72; 131; 0; 24; 0; 0; 0; 1; 0; 0; 7; 0; 2; 0; 2; 0; 16; 0; 207; 0; 1; 0; 8; 107; 0; 1; 0; 7].
Proof.
  ok_pair (v2_parse dg [72; 131; 0; 24; 0; 0; 0; 1; 0; 0; 7; 0; 207; 0; 1; 0; 8; 107; 0; 1; 0; 7; 2; 0; 2; 0; 16; 0])
    ltac:(fun d m => exists m; ok_pair (v2_marshal dg d_ContextResponse m) ltac:(fun w m1 => exists w, m1)). done.
Qed.

Print Assumptions C14_v2_create_session_request.
Print Assumptions C14_v2_context_response.
Print Assumptions C15_v2_create_session_request.
Print Assumptions C15_v2_create_bearer_response.
Print Assumptions C15_v2_context_response.
Print Assumptions C16_v2_remarshal_all.
