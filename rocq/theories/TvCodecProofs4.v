(** Proofs about TvCodec.v: GTPv1 concluded, and all accessors. *)
From Coq Require Import String ZArith.
From Verif Require Import Base BaseLemmas Utils UtilsProofs TvIE TvIESpec TvIEProofs V2IEProofs V2EditProofs Spec
  V2Codec V2Codec2 V2Pco CodecSpec CodecSpec2 CodecSpec4 V2CodecProofs V2CodecProofs3 V2IdProofs V2TimeProofs V2PcoProofs TvCodec TvCodecSpec
  TvCodecProofs TvCodecProofs2 TvCodecProofs3.
Open Scope N_scope.
Open Scope list_scope.

(** ** AUTN *)
Lemma shifted_constant l a : l = firstn (len l) (a :: l) -> Forall (fun x => x = a) l.
Proof.
  revert a. induction l as [|x l IH]; intros a E; [constructor|]. cbn [List.length firstn] in E. injection E as -> E. constructor; [reflexivity|]. apply IH, E.
Qed.
Lemma autn_constant rand xres ck ik autn i : octets 16 rand -> octets 16 ck -> octets 16 ik -> (len xres < 256)%nat -> (len autn < 256)%nat ->
  new_quintuplet rand xres ck ik autn = Ok i -> acc_autn i = Ok autn -> Forall (fun x => x = N.of_nat (len autn)) autn.
Proof.
  intros O1 O2 O3 Lx La E A. rewrite quintuplet_eq in E by assumption. apply Ok_inj in E. subst i.
  unfold acc_autn in A. rewrite typed1_new in A. set (q := quintuplet_octets rand xres ck ik autn) in *.
  destruct O1 as [L1 _], O2 as [L2 _], O3 as [L3 _].
  assert (Lq : len q = (50 + len xres + len autn)%nat) by (unfold q, quintuplet_octets; len_tac).
  rewrite at_least_ok in A by lia.
  assert (I : idx q 16 = Ok (N.of_nat (len xres))) by (unfold q, quintuplet_octets; rewrite idx_app_r, L1 by lia; reflexivity).
  rewrite I in A. cbn [bind] in A. rewrite Nat2N.id in A. cbv zeta in A.
  destruct (idx q 50) as [m| |] eqn:Em; [|discriminate A|discriminate A]. cbn [bind] in A. unfold at_least in A.
  destruct (len q <? 49 + len xres + N.to_nat m)%nat eqn:Eq; [discriminate A|].
  rewrite slice_ok in A by lia. apply Ok_inj in A.
  assert (K : skipn (49 + len xres) q = N.of_nat (len autn) :: autn).
  { unfold q, quintuplet_octets. rewrite !app_assoc. rewrite <- (app_assoc _ [N.of_nat (len autn)] autn). apply skipn_app_exact. len_tac. }
  rewrite K in A. replace (49 + len xres + N.to_nat m - (49 + len xres))%nat with (N.to_nat m) in A by lia.
  assert (Lm : N.to_nat m = len autn).
  { pose proof (f_equal (@List.length N) A) as F. rewrite firstn_length in F. cbn [List.length] in F. lia. }
  rewrite Lm in A. apply shifted_constant. symmetry. exact A.
Qed.
Lemma autn_panics i : bytes_ok (i1_payload i) -> (acc_autn i = Panic <-> i1_type i = 136 /\ len (i1_payload i) = 50%nat).
Proof.
  intros B. destruct i as [t l p]. cbn [i1_payload i1_type] in *. unfold acc_autn, typed1. cbn [i1_payload i1_type].
  destruct (N.eqb_spec t 136) as [->|]; [|split; [discriminate|tauto]]. unfold at_least.
  destruct (len p <? 50)%nat eqn:E; [split; [discriminate|lia]|].
  rewrite (idx_ok p 16 0) by lia. cbn [bind]. cbv zeta. destruct (idx p 50) as [m|e|] eqn:Em; cbn [bind].
  - apply idx_lt in Em.
    match goal with |- context [(?a <? ?b)%nat] => destruct (a <? b)%nat eqn:E2 end; [split; [discriminate|intros [_ L]; exfalso; lia]|].
    rewrite slice_ok by lia. split; [discriminate|intros [_ L]; exfalso; lia].
  - split; [discriminate|]. intros [_ L]. unfold idx in Em. destruct (nth_error p 50); discriminate.
  - split; [|reflexivity]. intros _. split; [reflexivity|]. unfold idx in Em. destruct (nth_error p 50) eqn:En; [discriminate|]. apply nth_error_None in En. lia.
Qed.
(** ** Times *)
Open Scope Z_scope.
Lemma ms_time_zone_all k dst : -79 <= k <= 79 -> (dst < 4)%N ->
  exists i, made_1 (some1 (new_ms_time_zone (k * (15 * minute)) dst)) 153 [tz_spec k; dst] i /\
    acc_ms_time_zone i = Ok (k * (15 * minute)) /\ acc_ms_dst i = Ok dst.
Proof.
  intros Hk Hd. destruct (tz_back k Hk) as (B & V & O).
  assert (D : N.land dst 3 = dst) by (change 3%N with (N.ones 2); rewrite N.land_ones; apply N.mod_small; exact Hd).
  assert (E : new_ms_time_zone (k * (15 * minute)) dst = Ok (new1 tv1 153 [tz_spec k; dst])) by (unfold new_ms_time_zone; rewrite B, D; reflexivity).
  rewrite E. exists (new1 tv1 153 [tz_spec k; dst]). split; [|split].
  - apply new1_made. fit. repeat constructor; [exact O|]. unfold is_byte. lia.
  - unfold acc_ms_time_zone. rewrite typed1_new, at_least_ok by (cbn; lia). change (idx [tz_spec k; dst] 0) with (Ok (tz_spec k)). cbn [bind]. rewrite V. reflexivity.
  - reflexivity.
Qed.
Lemma uli_timestamp1_all x frac : - ntp_unix <= x < 2 ^ 32 -> 0 <= frac < sec ->
  exists i, made_1 (some1 (new_uli_timestamp1 ((x + ntp_unix) * sec + frac))) 214 (enc32 (Z.to_N ((x + ntp_unix) mod 2 ^ 32))) i /\
    acc_timestamp1 i = Ok (x mod 2 ^ 32).
Proof.
  intros Hx Hf.
  assert (E : ((x + ntp_unix) * sec + frac) mod 2 ^ 64 / 1000000000 mod 2 ^ 32 = (x + ntp_unix) mod 2 ^ 32).
  { change ntp_unix with 2208988800 in *. unfold sec in *. rewrite (Z.mod_small _ (2 ^ 64)) by lia.
    rewrite Z.div_add_l by lia. rewrite (Z.div_small frac) by lia. rewrite Z.add_0_r. reflexivity. }
  set (v := Z.to_N ((x + ntp_unix) mod 2 ^ 32)).
  assert (Hv : (v < 4294967296)%N) by (unfold v; lia).
  unfold new_uli_timestamp1. rewrite E. fold v. rewrite new32_eq. exists (new1 tv1 214 (enc32 v)). split.
  - apply new1_made. fit. apply enc32_ok.
  - unfold acc_timestamp1. ty1. change (len (enc32 v) <? 4)%nat with false. cbv iota. rewrite be32_enc' by exact Hv. cbn [bind]. f_equal.
    unfold v. rewrite Z2N.id by lia. change ntp_unix with 2208988800. rewrite Zminus_mod_idemp_l. f_equal. lia.
Qed.
Open Scope N_scope.
(** ** PCO *)
Lemma pco1_all proto l : proto < 8 -> Forall container_val_ok l -> (len (pco_octets proto l) < N.to_nat 65536)%nat ->
  exists i, made_1 (new_pco1 proto (map (fun c => new_container (fst c) (snd c)) l)) 132 (pco_octets proto l) i /\
    acc_pco1 i = Ok (proto, map (fun c => new_container (fst c) (snd c)) l).
Proof.
  intros Hp Hl Hs. change (map (fun c => new_container (fst c) (snd c)) l) with (map mk_container l).
  pose proof (pco_marshal_spec 1 proto l Hp Hl) as M. unfold pco_marshal, pco_mto, pco_mlen in M. cbn [pc_proto pc_opts] in M.
  exists (new1 tv1 132 (pco_octets proto l)). split.
  - assert (E : new_pco1 proto (map mk_container l) = Ok (Some (new1 tv1 132 (pco_octets proto l)))).
    { unfold new_pco1. cbv zeta. rewrite M. rewrite filled1_new; [reflexivity|]. rewrite containers_total. unfold pco_octets. rewrite app_length. reflexivity. }
    rewrite E. apply new1_made. fit. apply pco_octets_ok; assumption.
  - unfold acc_pco1. rewrite typed1_new. unfold pco_octets. 
    change (flat_map (fun c => container_octets (fst c) (snd c)) l) with (flat_map cont_oct l).
    rewrite app_length. cbn [List.length Nat.add Nat.eqb].
    change (idx ([128 + proto] ++ flat_map cont_oct l) 0) with (Ok (128 + proto)). cbn [bind].
    change (containers_parse ?f ?b 1) with (containers_parse f b (len [128 + proto])). rewrite containers_parse_spec; [|assumption|pose proof (len_le_flat l); cbn; lia].
    cbn [bind]. destruct (first_octet proto Hp) as [_ ->]. reflexivity.
Qed.

(** ** No accessor but AUTN panics *)
Ltac crush := safe_tac; try (apply safe_idx; lia).
Lemma typed1_safe {A} t (f : bytes -> res A) i : safe (f (i1_payload i)) -> safe (typed1 t f i).
Proof. intros H. unfold typed1. destruct (_ =? _); [exact H|apply safe_err]. Qed.
Lemma at_least_safe {A} n (f : bytes -> res A) p : ((n <= len p)%nat -> safe (f p)) -> safe (at_least n f p).
Proof. intros H. unfold at_least. destruct (len p <? n)%nat eqn:E; [apply safe_err|]. apply H. lia. Qed.
Lemma be16_at_safe n p : (n + 2 <= len p)%nat -> safe (be16_at n p).
Proof. intros H. unfold be16_at. apply safe_bind; [apply safe_slice; lia|]. intros s Hs. apply slice_len in Hs. apply safe_be16. lia. Qed.
Lemma must_safe {A} (z : A) r : safe r -> safe (must z r).
Proof. intros H. destruct r; [apply safe_ok|apply safe_ok|congruence]. Qed.
Lemma decode_mcc_safe s : len s = 2%nat -> safe (decode_mcc s).
Proof. intros H. destruct s as [|x [|y [|]]]; try discriminate H. unfold decode_mcc. apply safe_ok. Qed.
Lemma decode_mnc_safe s : len s = 2%nat -> safe (decode_mnc s).
Proof. intros H. unfold decode_mnc. safe_tac; apply safe_idx; rewrite hex_encode_len; lia. Qed.
Lemma ends1_safe {A} (f : ie1 -> res A) i : safe (f i) -> ends1 f i <> Panic.
Proof. unfold ends1. destruct (f i); [discriminate|discriminate|congruence]. Qed.
Lemma ends1_ok {A} (f : ie1 -> res A) i : ends1 f i = Ok tt -> exists v, f i = Ok v.
Proof. unfold ends1. destruct (f i); [eauto|discriminate|discriminate]. Qed.
Lemma typed1_ok {A} t (f : bytes -> res A) i v : typed1 t f i = Ok v -> t = i1_type i.
Proof. unfold typed1. destruct (N.eqb_spec (i1_type i) t); [auto|discriminate]. Qed.

Lemma apn_loop1_safe fuel : forall p off, (len p < fuel + off)%nat -> safe (apn_loop1 fuel p off) \/ (fuel = 0)%nat.
Proof.
  induction fuel as [|fuel IH]; intros p off H; [right; reflexivity|left]. cbn [apn_loop1].
  destruct (off <? len p)%nat eqn:E; [|apply safe_ok]. apply safe_bind; [apply safe_idx; lia|]. intros x Hx. cbv zeta.
  destruct (len p <? off + N.to_nat x + 1)%nat eqn:E2; [apply safe_err|]. apply safe_bind; [apply safe_slice; lia|]. intros s Hs.
  apply safe_bind; [|intros; apply safe_ok]. destruct (IH p (off + (N.to_nat x + 1))%nat) as [S|S]; [lia|exact S|]. subst. lia.
Qed.
Lemma acc_apn1_safe i : safe (acc_apn1 i).
Proof.
  apply typed1_safe. apply safe_bind; [|intros; apply safe_ok]. destruct (apn_loop1_safe (S (len (i1_payload i))) (i1_payload i) 0) as [S|S]; [lia|exact S|discriminate].
Qed.
(** GTPv0 never reads an access point name *)
Lemma apn_loop0_fails fuel : forall p off, (off < len p)%nat -> (len p < fuel + off)%nat -> apn_loop0 fuel p off = Err EUnexpectedEOF.
Proof.
  induction fuel as [|fuel IH]; intros p off H F; [lia|]. cbn [apn_loop0]. replace (off <? len p)%nat with true by lia.
  rewrite (idx_ok p off 0) by lia. cbn [bind]. cbv zeta. destruct (len p <=? _)%nat eqn:E; [reflexivity|].
  rewrite slice_ok by lia. cbn [bind]. rewrite IH by lia. reflexivity.
Qed.
Lemma acc_apn0_fails i : acc_apn0 i = Err (if i1_type i =? 131 then EUnexpectedEOF else EInvalidType).
Proof.
  unfold acc_apn0, typed1. destruct (i1_type i =? 131); [|reflexivity]. unfold at_least. destruct (len (i1_payload i) <? 1)%nat eqn:E; [reflexivity|].
  rewrite apn_loop0_fails by lia. reflexivity.
Qed.
Lemma acc_pco1_safe i : safe (acc_pco1 i).
Proof.
  apply typed1_safe. destruct (len (i1_payload i) =? 0)%nat eqn:E; [apply safe_err|]. apply safe_bind; [apply safe_idx; lia|]. intros x _.
  apply safe_bind; [apply containers_parse_safe; lia|]. intros; apply safe_ok.
Qed.
Ltac acc_tac :=
  unfold typed1, at_least, octet_at, be16_at;
  crush; slice_facts;
  first [ assumption | apply safe_ok | apply swapped_to_str_safe | apply decode_mcc_safe; lia | apply decode_mnc_safe; lia 
        | apply safe_be32; lia | apply safe_be16; lia | (apply safe_bind; [apply swapped_to_str_safe|intros; apply safe_ok]) | idtac ].
Lemma acc8_safe t i : safe (acc8 t i).
Proof. unfold acc8. acc_tac. Qed.
Lemma acc32_safe t i : safe (acc32 t i).
Proof. unfold acc32. acc_tac. Qed.
Lemma acc_raw_safe t i : safe (acc_raw t i).
Proof. unfold acc_raw. acc_tac. Qed.
Lemma acc_address_safe t i : safe (acc_address t i).
Proof. unfold acc_address. acc_tac. Qed.
Lemma acc_flag_safe t i : safe (acc_flag t i).
Proof. unfold acc_flag. crush. Qed.
Lemma acc_flow_safe t i : safe (acc_flow t i).
Proof. unfold acc_flow. acc_tac. Qed.
Lemma acc_ip1_safe i : safe (acc_ip1 i).
Proof.
  unfold acc_ip1. destruct (_ <? _)%nat eqn:E; [apply safe_err|]. destruct (_ =? _); [|destruct (_ =? _); [apply safe_ok|apply safe_err]].
  apply safe_bind; [apply must_safe; apply acc8_safe|]. intros x _. destruct (_ =? _); [apply safe_slice_from; lia|apply safe_err].
Qed.
Lemma acc_xres_safe i : safe (acc_xres i).
Proof.
  unfold acc_xres. destruct (_ =? _)%nat; [apply safe_ok|]. apply typed1_safe, at_least_safe. intros H. apply safe_bind; [apply safe_idx; lia|]. intros n _.
  apply at_least_safe. intros. apply safe_slice; lia.
Qed.
Lemma acc_ck_safe i : safe (acc_ck i).
Proof.
  unfold acc_ck. apply typed1_safe, at_least_safe. intros H. apply safe_bind; [apply safe_idx; lia|]. intros n _. cbv zeta.
  apply at_least_safe. intros. apply safe_slice; lia.
Qed.
Lemma acc_ik_safe i : safe (acc_ik i).
Proof.
  unfold acc_ik. apply typed1_safe, at_least_safe. intros H. apply safe_bind; [apply safe_idx; lia|]. intros n _. cbv zeta.
  apply at_least_safe. intros. apply safe_slice; lia.
Qed.
Lemma acc_area_safe l i : safe (acc_area l i).
Proof.
  unfold acc_area. apply typed1_safe, at_least_safe. intros H. apply safe_bind; [apply safe_idx; lia|]. intros n _. destruct (_ =? _); [|apply safe_err].
  apply at_least_safe. intros. apply be16_at_safe. lia.
Qed.
Lemma acc_rac1_safe i : safe (acc_rac1 i).
Proof.
  unfold acc_rac1, octet_at. destruct (_ =? _); [apply at_least_safe; intros; apply safe_idx; lia|]. destruct (_ =? _); [|apply safe_err].
  apply at_least_safe. intros. apply safe_bind; [apply safe_idx; lia|]. intros n _. destruct (_ =? _); [apply safe_idx; lia|apply safe_err].
Qed.
Lemma accessors1_safe i : Forall (fun a => snd a i <> Panic) accessors1.
Proof.
  unfold accessors1, octet_ies1, word_ies1, raw_ies1. cbn [map app fst snd].
  repeat (apply Forall_cons; [cbn [snd]; apply ends1_safe|]); try apply Forall_nil;
    try first [apply acc8_safe|apply acc32_safe|apply acc_raw_safe|apply acc_address_safe|apply acc_ip1_safe|apply acc_apn1_safe|apply acc_pco1_safe|apply acc_ck_safe
              |apply acc_ik_safe|apply acc_area_safe|apply acc_rac1_safe].
  - unfold acc_teid1. crush.
  - unfold acc_ptmsi_sig1. acc_tac.
  - unfold acc_imsi1. acc_tac.
  - unfold acc_msisdn1. acc_tac.
  - unfold acc_imeisv. acc_tac.
  - unfold acc_ext_id. acc_tac.
  - unfold acc_ext_value. acc_tac.
  - unfold acc_mcc1. acc_tac.
  - unfold acc_mnc1. acc_tac.
  - unfold acc_lac1. acc_tac.
  - unfold acc_pdp_number, octet_at. acc_tac.
  - unfold acc_rand. acc_tac.
  - unfold acc_sres. acc_tac.
  - unfold acc_kc. acc_tac.
  - unfold acc_quintuplet. acc_tac.
  - unfold acc_ms_time_zone. acc_tac.
  - unfold acc_ms_dst, octet_at. acc_tac.
  - unfold acc_timestamp1. acc_tac.
Qed.
Lemma accessors0_safe i : Forall (fun a => snd a i <> Panic) accessors0.
Proof.
  unfold accessors0, octet_ies0, word_ies0. cbn [map app fst snd].
  repeat (apply Forall_cons; [cbn [snd]; apply ends1_safe|]); try apply Forall_nil;
    try first [apply acc8_safe|apply acc32_safe|apply acc_raw_safe|apply acc_address_safe|apply acc_ip1_safe|apply acc_flow_safe].
  - unfold acc_ptmsi_sig1. acc_tac.
  - unfold acc_imsi1. acc_tac.
  - unfold acc_msisdn1. acc_tac.
  - unfold acc_ext_id. acc_tac.
  - unfold acc_ext_value. acc_tac.
  - unfold acc_mcc0. acc_tac.
  - unfold acc_mnc0. acc_tac.
  - unfold acc_lac0. acc_tac.
  - unfold acc_rac0, octet_at. acc_tac.
  - unfold acc_pdp_number, octet_at. acc_tac.
  - rewrite acc_apn0_fails. apply safe_err.
  - unfold acc_qos_delay, masked. acc_tac.
  - unfold acc_qos_reliability, masked. acc_tac.
  - unfold acc_qos_peak, masked. acc_tac.
  - unfold acc_qos_precedence, masked. acc_tac.
  - unfold acc_qos_mean, masked. acc_tac.
  - unfold acc_nsapi0. acc_tac.
  - unfold acc_flow_data. acc_tac; apply acc_flow_safe.
Qed.
(** ** An accessor answers for its own types only *)
Lemma ends_typed {A} t (f : bytes -> res A) i : ends1 (typed1 t f) i = Ok tt -> In (i1_type i) [t].
Proof. intros H. apply ends1_ok in H. destruct H as [v H]. apply typed1_ok in H. left. exact H. Qed.
Ltac type_tac := intros H; apply ends1_ok in H; destruct H as [v H]; cbn [In];
  repeat match type of H with context [N.eqb (i1_type ?i) ?t] => let e := fresh in destruct (N.eqb_spec (i1_type i) t) as [e|e]; [rewrite e; tauto|cbn [orb] in H] end;
  repeat match type of H with (if ?b then _ else _) = _ => destruct b end; try discriminate H; auto.
Lemma accessors1_types i : Forall (fun a => snd a i = Ok tt -> In (i1_type i) (snd (fst a))) accessors1.
Proof.
  unfold accessors1, octet_ies1, word_ies1, raw_ies1. cbn [map app fst snd].
  repeat (apply Forall_cons; [cbn [snd fst]; try apply ends_typed|]); try apply Forall_nil.
  - unfold acc_teid1. type_tac.
  - unfold acc_mcc1. type_tac.
  - unfold acc_mnc1. type_tac.
  - unfold acc_lac1. type_tac.
  - unfold acc_rac1. type_tac.
  - unfold acc_ip1. type_tac.
  - unfold acc_ip1. type_tac.
  - unfold acc_rand. type_tac.
  - unfold acc_timestamp1. type_tac.
Qed.
Lemma accessors0_types i : Forall (fun a => snd a i = Ok tt -> In (i1_type i) (snd (fst a))) accessors0.
Proof.
  unfold accessors0, octet_ies0, word_ies0. cbn [map app fst snd].
  repeat (apply Forall_cons; [cbn [snd fst]; try apply ends_typed|]); try apply Forall_nil.
  - unfold acc_ip1. type_tac.
  - unfold acc_nsapi0. type_tac.
  - unfold acc_flow_data. type_tac.
Qed.
(** flags and XRES answer without a type check *)
Lemma flags_safe t k i : acc_flag t i <> Panic /\ is_set1 t k i <> Panic /\ acc_xres i <> Panic.
Proof.
  split; [apply acc_flag_safe|]. split; [|apply acc_xres_safe]. match goal with |- ?r <> Panic => change (safe r) end. unfold is_set1.
  apply safe_bind; [apply must_safe, acc8_safe|]. intros; apply safe_ok.
Qed.
