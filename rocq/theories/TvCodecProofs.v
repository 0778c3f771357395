(** Proofs about TvCodec.v. *)
From Coq Require Import String ZArith.
From Verif Require Import Base BaseLemmas Utils UtilsProofs TvIE TvIESpec TvIEProofs V2IEProofs V2EditProofs Spec
  V2Codec V2Codec2 V2Pco CodecSpec CodecSpec2 CodecSpec4 V2CodecProofs V2CodecProofs3 V2IdProofs V2TimeProofs V2PcoProofs TvCodec TvCodecSpec.
Open Scope N_scope.
Open Scope list_scope.

Section Tv.
Context (tv : N -> option nat) (xl : N -> bool).
Notation made := (made1 tv xl).
(** the value fits the type *)
Definition fits1 (t : N) (v : bytes) : Prop :=
  t < 256 /\ bytes_ok v /\
  match tv t with
  | Some n => len v = n /\ (1 <= n)%nat /\ t < 128
  | None => 128 <= t /\ N.of_nat (len v) < (if xl t then 256 else 65536)
  end.
Lemma new1_made t v : fits1 t v -> made (Ok (Some (new1 tv t v))) t v (new1 tv t v).
Proof.
  intros (Ht & Hv & F). split; [reflexivity|]. split; [reflexivity|]. split; [reflexivity|].
  unfold new1, set_length1; cbn [i1_type i1_payload]. destruct (tv t) as [n|] eqn:E.
  - destruct F as (F1 & F2 & F3). eapply wf1_tv; eauto.
  - destruct F as [F1 F2]. destruct (xl t) eqn:Ex.
    + replace (u16 (N.of_nat (len v))) with (N.of_nat (len v)) by (unfold u16; lia). apply wf1_xl; auto. lia.
    + replace (u16 (N.of_nat (len v))) with (N.of_nat (len v)) by (unfold u16; lia). apply wf1_tlv; auto. lia.
Qed.
Lemma filled1_new t n p : len p = n -> filled1 tv t n p = new1 tv t p.
Proof. intros <-. unfold filled1, new1, set_length1. cbn [i1_type i1_payload i1_length]. rewrite len_zeros. reflexivity. Qed.
Lemma typed1_new {A} t (f : bytes -> res A) p : typed1 t f (new1 tv t p) = f p.
Proof. unfold typed1, new1, set_length1. cbn [i1_type i1_payload]. rewrite N.eqb_refl. reflexivity. Qed.
Lemma at_least_ok {A} n (f : bytes -> res A) p : (n <= len p)%nat -> at_least n f p = f p.
Proof. intros H. unfold at_least. replace (len p <? n)%nat with false by lia. reflexivity. Qed.

Lemma octet_all t v : fits1 t [v] -> v < 256 -> made (Ok (Some (new8 tv t v))) t [v] (new8 tv t v) /\ acc8 t (new8 tv t v) = Ok v.
Proof.
  intros F Hv. split; [apply new1_made, F|]. unfold acc8, new8. rewrite typed1_new. reflexivity.
Qed.
Lemma new32_eq t v : new32 tv t v = Ok (new1 tv t (enc32 v)).
Proof. unfold new32. change (put32 v (zeros 4)) with (Ok (enc32 v)). cbn [bind]. rewrite filled1_new by reflexivity. reflexivity. Qed.
Lemma word_all t v : fits1 t (enc32 v) -> v < 2 ^ 32 -> made (some1 (new32 tv t v)) t (enc32 v) (new1 tv t (enc32 v)) /\ acc32 t (new1 tv t (enc32 v)) = Ok v.
Proof.
  intros F Hv. rewrite new32_eq. split; [apply new1_made, F|]. unfold acc32. rewrite typed1_new, at_least_ok by (cbn; lia). apply be32_enc'. exact Hv.
Qed.
Lemma raw_all t v : fits1 t v -> made (Ok (Some (new1 tv t v))) t v (new1 tv t v) /\ acc_raw t (new1 tv t v) = Ok v.
Proof. intros F. split; [apply new1_made, F|]. unfold acc_raw. rewrite typed1_new. reflexivity. Qed.
Lemma ptmsi_sig_all v : fits1 12 (enc24 v) -> v < 2 ^ 24 ->
  made (Ok (Some (new_ptmsi_sig1 tv v))) 12 (enc24 v) (new_ptmsi_sig1 tv v) /\ acc_ptmsi_sig1 (new_ptmsi_sig1 tv v) = Ok v.
Proof.
  intros F Hv. unfold new_ptmsi_sig1. rewrite uint32to24_enc. split; [apply new1_made, F|].
  unfold acc_ptmsi_sig1. rewrite typed1_new, at_least_ok by (cbn; lia). rewrite <- uint32to24_enc, uint24_roundtrip. rewrite N.mod_small by exact Hv. reflexivity.
Qed.
Lemma flag_all t b : fits1 t [if b : bool then 255 else 254] ->
  made (Ok (Some (new_flag tv t b))) t [if b then 255 else 254] (new_flag tv t b) /\ acc_flag t (new_flag tv t b) = Ok b.
Proof.
  intros F. split; [apply new1_made, F|]. unfold acc_flag, new_flag, new8, new1, set_length1. cbn [i1_type i1_payload]. rewrite N.eqb_refl. destruct b; reflexivity.
Qed.
Lemma private_all id v : fits1 255 (enc16 id ++ v) -> id < 2 ^ 16 ->
  exists i, made (some1 (new_private tv id v)) 255 (enc16 id ++ v) i /\ acc_ext_id i = Ok id /\ acc_raw 255 i = Ok (enc16 id ++ v) /\
    acc_ext_value i = (if (len v =? 0)%nat then Err EUnexpectedEOF else Ok v).
Proof.
  intros F Hid. exists (new1 tv 255 (enc16 id ++ v)).
  assert (E : new_private tv id v = Ok (new1 tv 255 (enc16 id ++ v))).
  { unfold new_private. rewrite (w_start (zeros _)). wr.
    change 2%nat with (len ([] ++ enc16 id)) at 1. rewrite copy_from_writes by (rewrite len_zeros; cbn; lia). cbn [bind].
    rewrite w_end by len_tac. rewrite filled1_new by len_tac. reflexivity. }
  rewrite E. split; [apply new1_made, F|]. unfold acc_ext_id, acc_raw, acc_ext_value. rewrite !typed1_new.
  split; [|split; [reflexivity|]].
  - rewrite at_least_ok by (rewrite app_length; cbn; lia). unfold be16_at. change (slice (enc16 id ++ v) 0 (0 + 2)) with (slice ([] ++ enc16 id ++ v) 0 2).
    rewrite (slice_mid [] (enc16 id) v 0 2) by reflexivity. cbn [bind]. apply be16_enc'. exact Hid.
  - unfold at_least. rewrite app_length, enc16_len. destruct v as [|x v]; [reflexivity|]. cbn [List.length Nat.eqb].
    replace (2 + S (len v) <? 3)%nat with false by lia. rewrite slice_from_app by reflexivity. reflexivity.
Qed.
(** ** Digits *)
Lemma digits1_made t s : Forall lowhex s -> fits1 t (tbcd s) -> made (new_or_nil1 tv t (str_to_swapped s [ch_f])) t (tbcd s) (new1 tv t (tbcd s)).
Proof. intros H F. rewrite (bcd_layout s H). apply new1_made, F. Qed.
Lemma tbcd_len s : Forall digit s -> (len (tbcd s) = (len s + 1) / 2)%nat.
Proof. intros H. apply tbcd_facts, digits_lowhex, H. Qed.
Lemma tbcd_ok s : Forall digit s -> bytes_ok (tbcd s).
Proof. intros H. apply tbcd_facts, digits_lowhex, H. Qed.
Lemma msisdn1_all s : Forall digit s -> s <> [] -> fits1 134 (nature_of_address :: tbcd s) ->
  exists i, made (new_msisdn1 tv s) 134 (nature_of_address :: tbcd s) i /\
    acc_msisdn1 i = Ok (if Nat.even (len s) then s else s ++ [102]).
Proof.
  intros H N F. pose proof (digits_lowhex s H) as Hx.
  assert (Hx' : Forall lowhex ([49; 57] ++ s)) by (apply Forall_app; split; [repeat constructor; unfold lowhex; lia|exact Hx]).
  exists (new1 tv 134 (nature_of_address :: tbcd s)).
  split. { apply (digits1_made 134 ([49; 57] ++ s) Hx' F). }
  unfold acc_msisdn1. rewrite typed1_new. pose proof (tbcd_nonempty s N) as T.
  rewrite at_least_ok by (destruct (tbcd s); [congruence|cbn; lia]).
  change (slice_from (nature_of_address :: tbcd s) 1) with (slice_from ([nature_of_address] ++ tbcd s) 1). rewrite slice_from_app by reflexivity. cbn [bind].
  destruct (tbcd_back s Hx) as [B C]. rewrite <- Nat.negb_even in B. destruct (Nat.even (len s)) eqn:E; [exact B|exact (C eq_refl)].
Qed.
Lemma apn_made s : fits1 131 (encs (split_dot s)) -> made (some1 (new_apn1 tv s)) 131 (encs (split_dot s)) (new1 tv 131 (encs (split_dot s))).
Proof.
  intros F. assert (E : new_apn1 tv s = Ok (new1 tv 131 (encs (split_dot s)))).
  { unfold new_apn1. pose proof (encode_fqdn_spec s) as L. unfold encode_fqdn in L. rewrite L. cbn [bind].
    rewrite filled1_new by (rewrite enc_labels_len; lia). reflexivity. }
  rewrite E. apply new1_made, F.
Qed.
(** ** Addresses *)
Lemma eua_eq number n ip : n = (2 + len ip)%nat -> new_eua tv number n ip = Ok (new1 tv 128 ([241; number] ++ ip)).
Proof.
  intros ->. unfold new_eua. rewrite (w_start (zeros _)). wr. wr. change 2%nat with (len (([] ++ [241]) ++ [number])) at 1.
  rewrite copy_from_writes by (rewrite len_zeros; cbn; lia). cbn [bind]. rewrite w_end by len_tac. rewrite filled1_new by len_tac. reflexivity.
Qed.
Lemma eua_acc number ip : (2 <= len ip)%nat -> let i := new1 tv 128 ([241; number] ++ ip) in
  acc_ip1 i = Ok ip /\ acc_pdp_org i = Ok 241 /\ acc_pdp_number i = Ok number /\ acc_raw 128 i = Ok ([241; number] ++ ip).
Proof.
  intros L i. unfold i, acc_pdp_org, acc_pdp_number, acc8, acc_raw. rewrite !typed1_new. repeat split.
  unfold acc_ip1, new1, set_length1. cbn [i1_type i1_payload]. replace (len ([241; number] ++ ip)%N <? 4)%nat with false by (rewrite app_length; cbn [List.length]; lia).
  change (128 =? 128) with true. cbv iota. unfold acc_pdp_org, acc8, typed1. cbn [i1_type i1_payload]. change (128 =? 128) with true. cbv iota.
  rewrite at_least_ok by (cbn; lia). change (octet_at 0 ([241; number] ++ ip)) with (Ok 241). cbn [must bind]. change (241 =? 241) with true. cbv iota.
  apply slice_from_app. reflexivity.
Qed.
End Tv.
