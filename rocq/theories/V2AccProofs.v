(** Accessors never panic. *)
From Coq Require Import Lia String.
From Verif Require Import Base BaseLemmas Utils UtilsProofs V2IE V2IESpec V2IEProofs V2EditProofs Spec V2Codec V2Codec2 CodecSpec CodecSpec4
  V2CodecProofs V2CodecProofs2 V2CodecProofs3 V2IdProofs V2Ind V2Pco V2Tft V2Uli V2UliProofs V2Acc AccSpec.
From Verif Require V2TftProofs V2PcoProofs.
Open Scope N_scope.
Open Scope list_scope.

Lemma ends_safe {A} (f : ie2 -> res A) i : safe (f i) -> safe (ends f i).
Proof. intros H E. unfold ends in E. destruct (f i); try discriminate E. now apply H. Qed.
Lemma typed_safe {A} t (f : ie2 -> res A) i : safe (f i) -> safe (typed t f i).
Proof. intros H. unfold typed. destruct (i2_type i =? t); [exact H|intros E; discriminate E]. Qed.

Section G.
Context (g : N -> bool).
Lemma wf2_payload_ok i : wf2 g i -> bytes_ok (i2_payload i).
Proof.
  intros H. pose proof (wf_bytes_ok g i H) as B. inversion H; subst; cbn [i2_payload]; [assumption|].
  cbn [wire2] in B. match goal with Q : g _ = true |- _ => rewrite Q in B end.
  apply Forall_app in B as [_ B]. apply Forall_app in B as [_ B]. now apply Forall_app in B as [_ B].
Qed.
Lemma context_safe {A} i (k : list ie2 -> res A) : bytes_ok (i2_payload i) ->
  (forall l, Forall (fun c => bytes_ok (i2_payload c)) l -> safe (k l)) -> safe (bind (bearer_context g i) k).
Proof.
  intros H K. unfold bearer_context. destruct (i2_type i =? 93); cbn [negb]; [|intros E; discriminate E].
  destruct (len (i2_payload i) <? 1)%nat; [intros E; discriminate E|].
  pose proof (multi2_safe g _ H) as S. destruct (multi2 g (i2_payload i)) as [l| |] eqn:E; [|intros Q; discriminate Q|now elim S].
  cbn [bind]. apply K. destruct (multi2_inv g _ _ H E) as [W _]. eapply Forall_impl; [|exact W]. intros c. apply wf2_payload_ok.
Qed.
Lemma find_in {A} (p : A -> bool) l x : find p l = Some x -> In x l.
Proof. intros H. now apply find_some in H. Qed.
Lemma via_safe {A} t (f : ie2 -> res A) i : bytes_ok (i2_payload i) -> (forall c, bytes_ok (i2_payload c) -> safe (f c)) -> safe (via_context g t f i).
Proof.
  intros H F. unfold via_context. destruct (i2_type i =? t); [now apply F|]. destruct (i2_type i =? 93); [|intros E; discriminate E].
  apply context_safe; [exact H|]. intros l L. destruct (find _ l) eqn:E; [|intros Q; discriminate Q]. apply F.
  apply find_in in E. rewrite Forall_forall in L. now apply L.
Qed.
Lemma u8_safe i : safe (value_u8 g i).
Proof. unfold value_u8. safe_tac. Qed.
Lemma u16_safe i : safe (value_u16 g i).
Proof. unfold value_u16. safe_tac. Qed.
Lemma u32_safe i : safe (value_u32 g i).
Proof. unfold value_u32. safe_tac. Qed.
Lemma u64_safe i : safe (value_u64 g i).
Proof. unfold value_u64. safe_tac. Qed.
Lemma string_safe i : safe (value_string g i).
Proof. unfold value_string. safe_tac. Qed.
Lemma fqdn_safe i : safe (value_fqdn g i).
Proof. unfold value_fqdn. destruct (g (i2_type i)); [intros E; discriminate E|apply decode_fqdn_safe]. Qed.
Lemma bqos_parse_safe b : safe (bqos_parse b).
Proof. unfold bqos_parse. safe_tac. Qed.
Lemma ran_parse_safe b : safe (ran_nas_parse b).
Proof. unfold ran_nas_parse. safe_tac. Qed.
Lemma pasi_parse_safe b : safe (pasi_parse b).
Proof. unfold pasi_parse. safe_tac. Qed.
Lemma fqcsid_parse_safe b : safe (fqcsid_parse b).
Proof. unfold fqcsid_parse. safe_tac. Qed.
Lemma uci_parse_safe b : safe (uci_parse b).
Proof. unfold uci_parse. safe_tac; try (apply decode_plmn_safe; slice_facts; lia). Qed.
Lemma trace_parse_safe b : safe (trace_reference_parse b).
Proof. unfold trace_reference_parse. safe_tac; try (apply decode_plmn_safe; slice_facts; lia). Qed.
Lemma ip_safe i : safe (acc_ip i).
Proof. unfold acc_ip. safe_tac; try apply paa_parse_safe; try apply fteid_parse_safe. Qed.
Lemma ipv4_safe i : safe (acc_ipv4 i).
Proof. unfold acc_ipv4, found. apply safe_bind; [apply ip_safe|]. intros a _. safe_tac. Qed.
Lemma found_safe o : safe (found o).
Proof. destruct o; intros E; discriminate E. Qed.
Lemma ipv6_safe i : safe (acc_ipv6 i).
Proof.
  unfold acc_ipv6. safe_tac; try apply ip_safe; try apply paa_parse_safe; try apply fteid_parse_safe; try apply found_safe.
Qed.
Lemma plmn_safe t i : safe (acc_plmn t i).
Proof. unfold acc_plmn, typed. safe_tac; apply decode_plmn_safe; lia. Qed.
Lemma digits_safe i : safe (digits_trimmed i).
Proof. unfold digits_trimmed. safe_tac; apply swapped_to_str_safe. Qed.
Lemma imsi_safe i : safe (acc_imsi i).
Proof. unfold acc_imsi, typed. safe_tac; apply swapped_to_str_safe. Qed.
Lemma offending_safe i : bytes_ok (i2_payload i) -> safe (acc_offending g i).
Proof.
  intros H. unfold acc_offending, typed. safe_tac. apply parse2_safe.
  match goal with E : slice _ _ _ = Ok _ |- _ => exact (slice_bytes_ok _ _ _ _ H E) end.
Qed.
Lemma tft_safe i : bytes_ok (i2_payload i) -> safe (acc_tft g i).
Proof.
  intros H. unfold acc_tft. destruct (_ || _)%bool; [now apply V2TftProofs.tft_parse_safe|].
  destruct (i2_type i =? 93); [|intros E; discriminate E]. apply context_safe; [exact H|]. intros l L.
  destruct (find _ l) eqn:E; [|intros Q; discriminate Q]. apply V2TftProofs.tft_parse_safe.
  apply find_in in E. rewrite Forall_forall in L. now apply L.
Qed.
Lemma pco_safe i : bytes_ok (i2_payload i) -> safe (acc_pco g i).
Proof.
  intros H. apply via_safe; [exact H|]. intros c C. destruct (len (i2_payload c) <? 1)%nat; [intros E; discriminate E|].
  apply V2PcoProofs.pco_parse_safe.
Qed.
Lemma has_of_safe e i : (fst (fst e) = S (snd (fst e)))%nat -> safe (has_of e i).
Proof.
  destruct e as [[n o] k]. cbn [fst snd]. intros ->. unfold has_of, acc_indication, typed. destruct (i2_type i =? 77); [|intros E; discriminate E].
  destruct (Nat.ltb_spec (len (i2_payload i)) (S o)) as [L|L]; [intros E; discriminate E|]. apply safe_bind; [apply safe_idx; lia|]. intros a _. apply safe_ok.
Qed.
Ltac crush := safe_tac; try (apply safe_idx; lia).
Lemma accessors_safe i : bytes_ok (i2_payload i) -> Forall (fun a => snd a i <> Panic) (accessors g).
Proof.
  intros H. unfold accessors. repeat rewrite Forall_app. repeat split.
  - apply Forall_forall. intros x X. apply in_map_iff in X as (e & <- & _). apply ends_safe, typed_safe, u8_safe.
  - apply Forall_forall. intros x X. apply in_map_iff in X as (e & <- & _). apply ends_safe, typed_safe, u16_safe.
  - apply Forall_forall. intros x X. apply in_map_iff in X as (e & <- & _). apply ends_safe, typed_safe, u32_safe.
  - apply Forall_forall. intros x X. apply in_map_iff in X as (e & <- & _). apply ends_safe, typed_safe, string_safe.
  - apply Forall_forall. intros x X. apply in_map_iff in X as (e & <- & _). apply ends_safe, typed_safe, fqdn_safe.
  - apply Forall_forall. intros x X. apply in_map_iff in X as (e & <- & X). apply ends_safe, has_of_safe.
    assert (B : forallb (fun e => Nat.eqb (fst (fst (snd e))) (S (snd (fst (snd e))))) ind_has = true) by (vm_compute; reflexivity).
    rewrite forallb_forall in B. apply Nat.eqb_eq. exact (B e X).
  - repeat apply Forall_cons; cbn [snd]; try apply ends_safe; try apply Forall_nil.
    + apply u8_safe. + apply u16_safe. + apply u32_safe. + apply u64_safe. + apply string_safe. + apply fqdn_safe.
    + intros E. apply (context_safe i (fun l => Ok l) H); [intros l _; apply safe_ok|]. rewrite E. reflexivity.
    + apply via_safe; auto using u8_safe.
    + apply via_safe; auto using u32_safe.
    + unfold acc_pdn_type. safe_tac; apply u8_safe.
    + unfold acc_csg_id. safe_tac; apply u32_safe.
    + unfold acc_cmi. safe_tac; apply u8_safe.
    + apply typed_safe. safe_tac.
    + apply typed_safe. safe_tac.
    + apply typed_safe. safe_tac.
    + apply typed_safe, fteid_parse_safe.
    + apply typed_safe. safe_tac.
    + unfold acc_gre_key. safe_tac.
    + unfold acc_teid. safe_tac.
    + apply ip_safe. + apply ip_safe. + apply ipv4_safe. + apply ipv6_safe.
    + apply typed_safe, s1udf_parse_safe.
    + apply typed_safe, ip_safe.
    + apply typed_safe, s103_parse_safe.
    + apply typed_safe, ip_safe.
    + apply typed_safe. crush.
    + apply via_safe; auto using u8_safe.
    + unfold acc_cause_flags. destruct (i2_type i =? 2); [crush|]. apply via_safe; auto using u8_safe.
    + now apply offending_safe.
    + apply typed_safe. unfold ambr_parse. crush.
    + apply typed_safe. crush.
    + apply typed_safe. crush.
    + apply typed_safe, u8_safe.
    + unfold acc_priority_level. destruct (i2_type i =? 155); [apply safe_bind; [apply typed_safe, u8_safe|intros a _; apply safe_ok]|].
      destruct (i2_type i =? 80); [|intros E; discriminate E]. apply safe_bind; [|intros a _; apply safe_ok].
      apply via_safe; [exact H|]. intros c _. apply bqos_parse_safe.
    + apply via_safe; [exact H|]. intros c _. apply bqos_parse_safe.
    + apply typed_safe. unfold fqos_parse. crush.
    + unfold acc_qci. crush; apply u8_safe.
    + unfold acc_umbr, rate. crush.
    + unfold acc_dmbr, rate. crush.
    + unfold acc_ugbr, rate. crush.
    + unfold acc_dgbr, rate. crush.
    + apply via_safe; auto using u8_safe.
    + apply typed_safe, u8_safe.
    + apply via_safe; [exact H|]. intros c _. apply ran_parse_safe.
    + apply typed_safe, pasi_parse_safe.
    + apply typed_safe. apply safe_bind; [apply pasi_parse_safe|]. intros a _. crush.
    + apply imsi_safe.
    + apply typed_safe, digits_safe.
    + apply typed_safe, digits_safe.
    + apply plmn_safe. + apply plmn_safe.
    + unfold acc_cnid. crush.
    + apply typed_safe. crush.
    + apply typed_safe. crush.
    + apply typed_safe. crush.
    + apply typed_safe, uci_parse_safe.
    + apply typed_safe. crush.
    + unfold acc_trace_id. crush.
    + apply trace_parse_safe.
    + now apply mcc_mnc_safe. + now apply mcc_mnc_safe.
    + apply typed_safe, fqcsid_parse_safe.
    + unfold acc_node_id_type. crush.
    + unfold acc_node_id. crush.
    + unfold acc_csids. crush.
    + apply typed_safe. crush.
    + unfold acc_timer. crush. + unfold acc_timer. crush.
    + apply typed_safe. unfold throttling_parse. crush.
    + apply typed_safe. crush.
    + apply typed_safe. crush.
    + unfold acc_timestamp. crush.
    + apply typed_safe. crush.
    + now apply pco_safe.
    + now apply tft_safe. + now apply tft_safe. + now apply tft_safe.
    + now apply acc_uli_safe. + now apply info_safe.
    + apply paa_parse_safe.
Qed.
End G.
(** GUTI *)
Lemma guti_panics spare i : acc_guti spare i = Panic <-> i2_type i = 117 /\ len (i2_payload i) = 3%nat /\ spare = [].
Proof.
  unfold acc_guti, typed. destruct (N.eqb_spec (i2_type i) 117) as [T|T].
  2: { split; [discriminate|]. intros (A & _). contradiction. }
  unfold guti_parse. destruct (Nat.ltb_spec (len (i2_payload i)) 3) as [L|L].
  { split; [discriminate|]. intros (_ & A & _). lia. }
  set (b := i2_payload i) in *. clearbody b. split.
  - intros E. destruct (Nat.eq_dec (len b) 3) as [L3|L3]; [destruct spare as [|x s]|]; [auto| |].
    + exfalso. revert E. change (safe (do s1 <- slice (b ++ x :: s) 1 3; do mcc <- decode_mcc s1; do s2 <- slice (b ++ x :: s) 2 4; do mnc <- decode_mnc s2;
        if (len b <? 10)%nat then Err EUnexpectedEOF else do s3 <- slice b 3 5; do gr <- be16 s3; do c <- idx b 5; do s4 <- slice b 6 10; do t <- be32 s4;
        Ok (Guti mcc mnc gr c t))).
      assert (LL : (4 <= len (b ++ x :: s))%nat) by (rewrite app_length; cbn; lia).
      unfold decode_mcc, decode_mnc. safe_tac; apply safe_idx; slice_facts; rewrite hex_encode_len; lia.
    + exfalso. revert E. change (safe (do s1 <- slice (b ++ spare) 1 3; do mcc <- decode_mcc s1; do s2 <- slice (b ++ spare) 2 4; do mnc <- decode_mnc s2;
        if (len b <? 10)%nat then Err EUnexpectedEOF else do s3 <- slice b 3 5; do gr <- be16 s3; do c <- idx b 5; do s4 <- slice b 6 10; do t <- be32 s4;
        Ok (Guti mcc mnc gr c t))).
      assert (LL : (4 <= len (b ++ spare))%nat) by (rewrite app_length; lia).
      unfold decode_mcc, decode_mnc. safe_tac; apply safe_idx; slice_facts; rewrite hex_encode_len; lia.
  - intros (_ & L3 & ->). destruct b as [|x [|y [|z [|? ?]]]]; try discriminate L3. rewrite app_nil_r.
    unfold decode_mcc. cbn. repeat match goal with |- context [if ?c then _ else _] => destruct c; cbn end; reflexivity.
Qed.
