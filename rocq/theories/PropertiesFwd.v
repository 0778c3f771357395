(** Passing a received GTPv2 message on: C76. *)
From Coq Require Import String Lia.
From Verif Require Import Base BaseLemmas Utils V2IE V2IEProofs V2Header V2HeaderProofs MsgModel MsgSpec MsgProofs Msgs2Gen V2Msg V2MsgProofs Properties2Fix PropertiesBase2 CPlane.
Open Scope string_scope.
Open Scope N_scope.
Open Scope list_scope.

(** The header of a received message is replaced by one of the same type and payload *)
Lemma parse_head g b d m b' h' : bytes_ok b -> v2_parse g b = Ok (d, m) -> h2_parse b' = Ok h' -> idx b' 1 = Ok (h2_type h') -> (2 <= len b')%nat ->
  h2_type h' = h2_type (m_hdr m) -> h2_payload h' = h2_payload (m_hdr m) -> v2_parse g b' = Ok (d, Msg h' (m_fs m)).
Proof.
  intros Hb Hp Hh Hi Hl Ht Hpl. destruct (v2_parse_parts g b d m Hp) as (t & E1 & Ed & E2 & Ep).
  unfold v2_parse. rewrite (proj2 (Nat.ltb_ge (len b') 2)) by exact Hl. rewrite Hi, Ht, E2. cbn [bind]. rewrite <- Ed.
  assert (K : v2_parse_as g d b' = Ok (Msg h' (m_fs m))); [|rewrite K; reflexivity].
  unfold v2_parse_as, msg_parse in *. cbn [ho2 ho_parse] in *. rewrite Hh. apply bind_ok_inv in Ep as (h & Eh & Ep). cbn [bind].
  assert (Em : h = m_hdr m).
  { destruct (_ <? _)%nat; [injection Ep as <-; reflexivity|]. destruct (io_multi _ _) as [l|e|]; [|destruct e; try discriminate; destruct (md_soft d); [injection Ep as <-; reflexivity|discriminate]|discriminate].
    apply bind_ok_inv in Ep as (fs & _ & Ep). injection Ep as <-. reflexivity. }
  subst h. cbn [ho2 ho_payload] in *. rewrite Hpl. destruct (_ <? _)%nat; [injection Ep as <-; reflexivity|].
  destruct (io_multi _ _) as [l|e|]; [|destruct e; try discriminate; destruct (md_soft d); [injection Ep as <-; reflexivity|discriminate]|discriminate].
  apply bind_ok_inv in Ep as (fs & F & Ep). rewrite F. cbn [bind]. injection Ep as <-. reflexivity.
Qed.
(** the Length field does not matter when a message is marshalled *)
Lemma marshal_len g d h l fs : v2_marshal g d (Msg (h2_set_len h l) fs) = v2_marshal g d (Msg h fs).
Proof. unfold v2_marshal, msg_marshal, msg_mto, msg_mlen. destruct (md_reset d); reflexivity. Qed.

Theorem C76_v2_forward : forall b d m t n, bytes_ok b -> N.of_nat (len b) + 4 < 65536 -> v2_parse g2 b = Ok (d, m) ->
  t < 4294967296 -> n < 16777216 ->
  (md_name d = "CreateSessionRequest" -> fget (m_fs m) "PrivateExtension" = [] \/ fget (m_fs m) "AdditionalIEs" = []) ->
  exists raw m1, respond_bytes d (Msg (h2_set_teid (m_hdr m) t) (m_fs m)) n = Ok raw /\ (len raw <= len b + 4)%nat /\
    v2_parse g2 raw = Ok (d, m1) /\ m_fs m1 = m_fs m /\
    h2_get_teid (m_hdr m1) = t /\ h2_seq (m_hdr m1) = n /\ h2_type (m_hdr m1) = h2_type (m_hdr m) /\ h2_spare (m_hdr m1) = h2_spare (m_hdr m).
Proof.
  intros b d m t n Hb Hl Hp Ht Hn Hone.
  assert (Eh : h2_parse b = Ok (m_hdr m)).
  { destruct (v2_parse_parts g2 b d m Hp) as (x & _ & _ & _ & Ep). unfold v2_parse_as, msg_parse in Ep. cbn [ho2 ho_parse] in Ep.
    apply bind_ok_inv in Ep as (h & Eh & Ep). rewrite Eh. f_equal.
    destruct (_ <? _)%nat; [injection Ep as <-; reflexivity|]. destruct (io_multi _ _) as [l|e|]; [|destruct e; try discriminate; destruct (md_soft d); [injection Ep as <-; reflexivity|discriminate]|discriminate].
    apply bind_ok_inv in Ep as (fs & _ & Ep). injection Ep as <-. reflexivity. }
  destruct (h2_parse_inv b _ Hb Eh) as (A1 & A2 & A3 & A4 & A5 & A6 & A7 & A8 & _ & _ & q & Eq).
  set (h0 := h2_set_seq (h2_set_teid (m_hdr m) t) n). set (h' := h2_set_length h0).
  destruct (C58_v2_set_teid (m_hdr m) t A1) as (B1 & B2 & _).
  assert (T0 : h2_has_teid h0 = true) by exact B2. assert (T' : h2_has_teid h' = true) by exact B2.
  assert (Pl : h2_payload h' = h2_payload (m_hdr m)) by reflexivity.
  assert (M' : (h2_mlen h' <= len b + 4)%nat /\ (12 <= h2_mlen h')%nat).
  { rewrite Eq, app_length, h2_wire_len. unfold h2_mlen. rewrite T', Pl. destruct (h2_has_teid (m_hdr m)); lia. }
  assert (F' : h2_flags h' < 256).
  { assert (K : forallb (fun f => N.lor f 8 <? 256) all_bytes = true) by (vm_compute; reflexivity). pose proof (byte_sweep _ K _ A1) as Q. apply N.ltb_lt in Q. exact Q. }
  assert (W : h2_wf h').
  { assert (Ft : N.of_nat (h2_mlen h0) < 65536) by (change (h2_mlen h0) with (h2_mlen h'); lia). pose proof (h2_set_length_exact h0 Ft) as Lx.
    constructor; first [exact Lx|exact Ft|assumption|(rewrite T'; discriminate)]. }
  set (b2 := h2_wire h'). assert (Lb : len b2 = h2_mlen h') by apply h2_wire_len.
  assert (P2 : h2_parse b2 = Ok h') by (rewrite <- (app_nil_r b2); apply h2_parse_wire; [exact W|lia]).
  assert (B2ok : bytes_ok b2). { apply Forall_app. split; [|exact A8]. apply Forall_app. split; [repeat constructor; assumption|].
    apply Forall_app. split; [apply enc16_ok|]. apply Forall_app. split; [rewrite T'; apply enc32_ok|]. apply Forall_app. split; [apply enc24_ok|repeat constructor; assumption]. }
  assert (V2 : v2_parse g2 b2 = Ok (d, Msg h' (m_fs m))).
  { apply (parse_head g2 b d m b2 h' Hb Hp P2); try reflexivity. lia. }
  destruct (C16_v2_remarshal_all g2 b2 d _ B2ok ltac:(lia) V2) as (raw & m1 & R1 & R2 & R3 & R4 & R5 & R6 & R7 & R8 & R9).
  { exact Hone. } { left. exact T'. }
  cbn [m_fs m_hdr] in *. exists raw, m1. split.
  { unfold h' in R1. rewrite h2_setlen, marshal_len in R1. unfold respond_bytes. cbn [m_hdr m_fs]. cbv zeta. fold h0.
    unfold v2_marshal, msg_marshal in R1. apply bind_ok_inv in R1 as (k & K1 & K2). unfold v2_len, v2_mto. rewrite K1. cbn [bind]. rewrite K2. reflexivity. }
  split; [lia|]. split; [exact R2|]. split; [exact R3|].
  split; [unfold h2_get_teid, h2_has_teid in *; rewrite R5; fold (h2_has_teid h'); unfold h2_has_teid; rewrite T'; exact R7|].
  split; [exact R8|]. split; [exact R6|exact R9].
Qed.
Print Assumptions C76_v2_forward.
(** a Delete Session Response without TEID flag (Cause 16, Recovery 7), passed on to TEID 513
    under sequence number 78 *)
Example C76_v2_forward_example : let b := [64; 37; 0; 15; 0; 0; 9; 0; 2; 0; 2; 0; 16; 0; 3; 0; 1; 0; 7] in
  match v2_parse g2 b with
  | Ok (d, m) => md_name d = "DeleteSessionResponse" /\
      respond_bytes d (Msg (h2_set_teid (m_hdr m) 513) (m_fs m)) 78 = Ok [72; 37; 0; 19; 0; 0; 2; 1; 0; 0; 78; 0; 2; 0; 2; 0; 16; 0; 3; 0; 1; 0; 7]
  | _ => False end /\ bytes_okb b = true.
Proof. vm_compute. repeat split. Qed.
