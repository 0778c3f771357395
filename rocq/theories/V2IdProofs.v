(** Proofs about V2Codec2.v: subscriber and network identities. *)
From Verif Require Import Base BaseLemmas Utils UtilsProofs V2IE V2IESpec V2IEProofs V2EditProofs Spec V2Codec V2Codec2 CodecSpec CodecSpec4
  V2CodecProofs V2CodecProofs3.
Open Scope N_scope.
Open Scope list_scope.

(** ** Digit strings *)
Lemma digits_lowhex s : Forall digit s -> Forall lowhex s.
Proof. intros H. eapply Forall_impl; [|exact H]. unfold digit, lowhex. tauto. Qed.
Lemma tbcd_facts s : Forall lowhex s -> bytes_ok (tbcd s) /\ (len (tbcd s) = (len s + 1) / 2)%nat.
Proof.
  intros H. destruct (str_to_swapped_ok s (tbcd s) (bcd_layout s H)) as [A B]. auto.
Qed.
Lemma trim_f_filler s : trim_f (s ++ [ch_f]) = s.
Proof. unfold trim_f. rewrite rev_app_distr. cbn [rev app]. rewrite N.eqb_refl. apply rev_involutive. Qed.
Lemma trim_f_digits s : Forall digit s -> trim_f s = s.
Proof.
  intros H. unfold trim_f. destruct (rev s) as [|c r] eqn:E; [reflexivity|].
  assert (Hc : digit c). { apply (proj1 (Forall_forall _ _) H). apply in_rev. rewrite E. left. reflexivity. }
  replace (c =? ch_f) with false; [reflexivity|]. unfold digit, ch_f in *. lia.
Qed.
Section G.
Context (g : N -> bool).
Lemma digits_made t s : Forall lowhex s -> t < 256 -> (len s < N.to_nat 131070)%nat ->
  made g (new_digits g t s) t (tbcd s) (new2 g t 0 (tbcd s)).
Proof.
  intros H Ht Hl. destruct (tbcd_facts s H) as [A B]. unfold new_digits.
  apply new_or_nil_made; [apply bcd_layout, H|exact Ht|exact A|]. rewrite B.
  apply Nat.div_lt_upper_bound; lia.
Qed.
Lemma tbcd_nonempty s : s <> [] -> tbcd s <> [].
Proof. destruct s as [|a [|b r]]; [congruence|discriminate|discriminate]. Qed.
Lemma tbcd_back s : Forall lowhex s ->
  swapped_to_str (tbcd s) (Nat.odd (len s)) = Ok s /\
  (Nat.even (len s) = false -> swapped_to_str (tbcd s) false = Ok (s ++ [ch_f])).
Proof.
  intros H. pose proof (bcd_layout s H) as L. rewrite <- Nat.negb_even. destruct (Nat.even (len s)) eqn:E.
  - destruct (bcd_even s H E) as (b & E1 & E2 & _). rewrite L in E1. apply Ok_inj in E1. subst b. split; [exact E2|discriminate].
  - destruct (bcd_odd s H E) as (b & E1 & E2 & E3 & _). rewrite L in E1. apply Ok_inj in E1. subst b. split; [exact E2|auto].
Qed.
Lemma imsi_all s : Forall digit s -> Nat.odd (len s) = true -> (len s < N.to_nat 131070)%nat ->
  exists i, made g (new_imsi g s) 1 (tbcd s) i /\ acc_imsi i = Ok s.
Proof.
  intros H Ho Hl. apply digits_lowhex in H. eexists. split; [apply (digits_made 1 s H); [lia|exact Hl]|].
  unfold acc_imsi. rewrite typed_new2. ty. destruct (tbcd_back s H) as [B _]. rewrite Ho in B.
  pose proof (tbcd_nonempty s) as N. destruct (tbcd s) as [|x r]; [|exact B].
  exfalso. apply N; [|reflexivity]. intros ->. discriminate Ho.
Qed.
(** an IMSI with an even number of digits comes back without its last digit *)
Lemma imsi_even s : Forall digit s -> s <> [] -> Nat.even (len s) = true -> (len s < N.to_nat 131070)%nat ->
  exists i, made g (new_imsi g s) 1 (tbcd s) i /\ acc_imsi i = Ok (firstn (len s - 1) s).
Proof.
  intros H Hn Ho Hl. apply digits_lowhex in H. eexists. split; [apply (digits_made 1 s H); [lia|exact Hl]|].
  unfold acc_imsi. rewrite typed_new2. ty. destruct (tbcd_back s H) as [B _]. rewrite <- Nat.negb_even, Ho in B. cbn [negb] in B.
  pose proof (tbcd_nonempty s Hn) as N. destruct (tbcd s) as [|x r]; [congruence|].
  cbn [List.length]. change (S (len r) <? 1)%nat with false. cbv iota.
  rewrite swapped_to_str_alt in *. cbn [List.length Nat.eqb] in *. apply Ok_inj in B. cbv zeta. rewrite B.
  unfold slice_to. rewrite slice_ok by lia. cbn [skipn]. rewrite Nat.sub_0_r. reflexivity.
Qed.
Lemma trimmed_all t s : Forall digit s -> s <> [] -> t < 256 -> (len s < N.to_nat 131070)%nat ->
  exists i, made g (new_digits g t s) t (tbcd s) i /\ typed t digits_trimmed i = Ok s.
Proof.
  intros H Hn Ht Hl. pose proof (trim_f_digits s H) as T. apply digits_lowhex in H.
  eexists. split; [apply (digits_made t s H); [exact Ht|exact Hl]|].
  rewrite typed_new2. unfold digits_trimmed. cbn [new2 set_length2 i2_payload].
  pose proof (tbcd_nonempty s Hn) as N. destruct (tbcd_back s H) as [B C]. destruct (tbcd s) as [|x r]; [congruence|].
  cbn [List.length]. change (S (len r) <? 1)%nat with false. cbv iota.
  rewrite <- Nat.negb_even in B. destruct (Nat.even (len s)) eqn:E; cbn [negb] in B.
  - rewrite B. cbn [bind]. rewrite T. reflexivity.
  - rewrite (C eq_refl). cbn [bind]. rewrite trim_f_filler. reflexivity.
Qed.

(** ** PLMN and what carries one *)
Lemma plmn_cells mcc mnc : is_mcc mcc -> is_mnc mnc ->
  exists x y z, plmn_octets mcc mnc = [x; y; z] /\ encode_plmn mcc mnc = Ok [x; y; z] /\ x < 256 /\ y < 256 /\ z < 256 /\
    forall q, decode_plmn (x :: y :: z :: q) = Ok (mcc, mnc).
Proof.
  intros H1 H2. destruct (plmn_roundtrip mcc mnc [] H1 H2) as (b & E & L & O & _).
  pose proof (plmn_layout mcc mnc H1 H2) as E'. rewrite E in E'. apply Ok_inj in E'. 
  destruct (len3 b L) as (x & y & z & ->). bytes_split.
  exists x, y, z. repeat (split; [auto|]). intros q.
  destruct (plmn_roundtrip mcc mnc q H1 H2) as (b' & Eb & _ & _ & D). rewrite E in Eb. apply Ok_inj in Eb. subst b'. exact D.
Qed.
Lemma plmn_ie_all t mcc mnc : is_mcc mcc -> is_mnc mnc -> t < 256 ->
  exists i, made g (new_plmn g t mcc mnc) t (plmn_octets mcc mnc) i /\ acc_plmn t i = Ok (mcc ++ mnc) /\
    ((t = 83 \/ t = 120) -> acc_mcc_mnc i = Ok (mcc, mnc)).
Proof.
  intros H1 H2 Ht. destruct (plmn_cells mcc mnc H1 H2) as (x & y & z & Ep & E & Hx & Hy & Hz & D). rewrite Ep.
  exists (new2 g t 0 [x; y; z]). split.
  - apply new_or_nil_made; [exact E|exact Ht|repeat constructor; assumption|cbn; lia].
  - split.
    + unfold acc_plmn. rewrite typed_new2. cbn [new2 set_length2 i2_payload List.length]. change (3 <? 3)%nat with false. cbv iota.
      rewrite D. reflexivity.
    + intros [->| ->]; unfold acc_mcc_mnc; ty; apply D.
Qed.
Lemma land_ones_small n k : n < 2 ^ k -> N.land n (N.ones k) = n.
Proof. intros H. rewrite N.land_ones. apply N.mod_small, H. Qed.
Lemma global_cn_id_all mcc mnc cnid : is_mcc mcc -> is_mnc mnc -> cnid < 2 ^ 12 ->
  exists i, made g (new_global_cn_id mcc mnc cnid) 89 (plmn_octets mcc mnc ++ enc16 cnid) i /\
    acc_cnid i = Ok cnid /\ acc_mcc_mnc i = Ok (mcc, mnc).
Proof.
  intros H1 H2 Hc. destruct (plmn_cells mcc mnc H1 H2) as (x & y & z & Ep & E & Hx & Hy & Hz & D). rewrite Ep.
  exists (IE2 89 5 0 ([x; y; z] ++ enc16 cnid) []). split; [|split].
  - split. { unfold new_global_cn_id. rewrite E. change 4095 with (N.ones 12). rewrite land_ones_small by exact Hc. reflexivity. }
    repeat (split; [reflexivity|]). intros Hg. apply wf2_plain; auto; try reflexivity; try (cbn; lia).
    apply bytes_ok_app; [repeat constructor; assumption|apply enc16_ok].
  - unfold acc_cnid. cbn [i2_payload i2_type]. change (slice ([x; y; z] ++ enc16 cnid) 3 5) with (Ok (enc16 cnid)). cbn [bind].
    change (89 =? 89) with true. change (len ([x; y; z] ++ enc16 cnid) <? 5)%nat with false. cbv iota.
    rewrite <- (app_nil_r (enc16 cnid)). apply be16_enc. change (2 ^ 12) with 4096 in Hc. lia.
  - unfold acc_mcc_mnc. cbn [i2_payload i2_type]. apply D.
Qed.
Lemma guti_all mcc mnc group code tmsi : is_mcc mcc -> is_mnc mnc -> group < 2 ^ 16 -> code < 256 -> tmsi < 2 ^ 32 ->
  exists i, made g (new_guti g mcc mnc group code tmsi) 117 (plmn_octets mcc mnc ++ enc16 group ++ [code] ++ enc32 tmsi) i /\
    acc_mme_group i = Ok group /\ acc_mme_code i = Ok code /\ acc_mtmsi i = Ok tmsi /\ acc_mcc_mnc i = Ok (mcc, mnc).
Proof.
  intros H1 H2 Hg Hc Ht. destruct (plmn_cells mcc mnc H1 H2) as (x & y & z & Ep & E & Hx & Hy & Hz & D). rewrite Ep.
  exists (new2 g 117 0 ([x; y; z] ++ enc16 group ++ [code] ++ enc32 tmsi)). split.
  - apply new_or_nil_made; [|lia| |cbn; lia].
    + unfold guti_mto. cbn [gu_mcc gu_mnc]. rewrite E. reflexivity.
    + repeat (apply bytes_ok_app); [repeat constructor; assumption|apply enc16_ok|repeat constructor; assumption|apply enc32_ok].
  - unfold acc_mme_group, acc_mme_code, acc_mtmsi, acc_mcc_mnc. rewrite !typed_new2. ty.
    set (b := [x; y; z] ++ enc16 group ++ [code] ++ enc32 tmsi).
    change (slice b 3 5) with (Ok (enc16 group)). change (slice b 6 10) with (Ok (enc32 tmsi)).
    split; [|split; [reflexivity|split; [|apply D]]]; cbn [bind].
    + change (len b <? 5)%nat with false. cbv iota. rewrite <- (app_nil_r (enc16 group)). apply be16_enc, Hg.
    + change (len b <? 10)%nat with false. cbv iota. rewrite <- (app_nil_r (enc32 tmsi)). apply be32_enc, Ht.
Qed.
Lemma uci_octet mode lcsg cmi : mode < 4 -> lcsg < 2 -> cmi < 2 ->
  N.lor (u8 (N.shiftl (N.land mode 3) 6)) (N.lor (N.land (u8 (N.shiftl lcsg 1)) 2) (N.land cmi 1)) = 64 * mode + 2 * lcsg + cmi /\
  N.lor (N.land (u8 (N.shiftl lcsg 1)) 2) (N.land cmi 1) = 2 * lcsg + cmi /\
  N.shiftr (64 * mode + 2 * lcsg + cmi) 6 = mode /\ N.land (64 * mode + 2 * lcsg + cmi) 3 = 2 * lcsg + cmi.
Proof.
  intros. assert (M : mode = 0 \/ mode = 1 \/ mode = 2 \/ mode = 3) by lia.
  assert (L : lcsg = 0 \/ lcsg = 1) by lia. assert (C : cmi = 0 \/ cmi = 1) by lia.
  decompose [or] M; decompose [or] L; decompose [or] C; subst; repeat split.
Qed.
Lemma uci_all mcc mnc csg mode lcsg cmi : is_mcc mcc -> is_mnc mnc -> csg < 2 ^ 27 -> mode < 4 -> lcsg < 2 -> cmi < 2 ->
  exists i, made g (new_uci g mcc mnc csg mode lcsg cmi) 145 (plmn_octets mcc mnc ++ enc32 csg ++ [64 * mode + 2 * lcsg + cmi]) i /\
    (exists f, acc_uci i = Ok f /\ uc_mcc f = mcc /\ uc_mnc f = mnc /\ uc_csg f = csg /\ uc_mode f = mode /\ uc_flags f = 2 * lcsg + cmi) /\
    acc_access_mode i = Ok mode /\ (g 145 = false -> acc_csg_id g i = Ok csg) /\ acc_mcc_mnc i = Ok (mcc, mnc).
Proof.
  intros H1 H2 Hs Hm Hl Hc. destruct (plmn_cells mcc mnc H1 H2) as (x & y & z & Ep & E & Hx & Hy & Hz & D). rewrite Ep.
  destruct (uci_octet mode lcsg cmi Hm Hl Hc) as (O1 & O2 & O3 & O4). set (o := 64 * mode + 2 * lcsg + cmi) in *.
  assert (Hs32 : csg < 2 ^ 32) by (change (2 ^ 27) with 134217728 in Hs; change (2 ^ 32) with 4294967296; lia).
  assert (L27 : N.land csg 134217727 = csg) by (change 134217727 with (N.ones 27); apply land_ones_small, Hs).
  exists (new2 g 145 0 ([x; y; z] ++ enc32 csg ++ [o])). split.
  - apply new_or_nil_made; [|lia| |cbn; lia].
    + unfold uci_mto. cbn [uc_mcc uc_mnc uc_csg uc_mode uc_flags]. rewrite E, O1, L27. reflexivity.
    + repeat (apply bytes_ok_app); [repeat constructor; assumption|apply enc32_ok|]. repeat constructor. unfold is_byte, o. lia.
  - unfold acc_uci, acc_access_mode. rewrite !typed_new2. unfold uci_parse, acc_mcc_mnc, acc_csg_id. ty.
    set (b := [x; y; z] ++ enc32 csg ++ [o]).
    assert (B : be32 (enc32 csg) = Ok csg) by (rewrite <- (app_nil_r (enc32 csg)); apply be32_enc, Hs32).
    split; [|split; [|split]].
    + change (slice b 0 3) with (Ok [x; y; z]). change (slice b 3 7) with (Ok (enc32 csg)). change (idx b 7) with (Ok o).
      cbn [bind]. rewrite D. cbn [bind]. change (len b <? 3)%nat with false. change (len b <=? 7)%nat with false. cbv iota.
      rewrite B. cbn [bind]. rewrite L27, O3, O4. eexists. split; [reflexivity|]. auto 10.
    + change (len b <? 8)%nat with false. change (idx b 7) with (Ok o). cbv iota. cbn [bind]. rewrite O3. reflexivity.
    + intros Hg. change (slice b 3 7) with (Ok (enc32 csg)). change (len b <? 7)%nat with false. cbv iota. cbn [bind]. rewrite B. cbn [bind]. rewrite ?L27. reflexivity.
    + apply D.
Qed.
Lemma trace_reference_all mcc mnc tid : is_mcc mcc -> is_mnc mnc -> tid < 2 ^ 24 ->
  exists i, made g (new_trace_reference g mcc mnc tid) 115 (plmn_octets mcc mnc ++ enc24 tid) i /\
    trace_reference_parse (i2_payload i) = Ok (mcc, mnc, tid) /\ acc_trace_id i = Ok tid /\ acc_mcc_mnc i = Ok (mcc, mnc).
Proof.
  intros H1 H2 Ht. destruct (plmn_cells mcc mnc H1 H2) as (x & y & z & Ep & E & Hx & Hy & Hz & D). rewrite Ep.
  exists (new2 g 115 0 ([x; y; z] ++ enc24 tid)). 
  assert (B : uint24to32 (enc24 tid) = tid) by (rewrite <- uint32to24_enc, uint24_roundtrip; apply N.mod_small, Ht).
  split; [|split; [|split]].
  - apply new_or_nil_made; [|lia|apply bytes_ok_app; [repeat constructor; assumption|apply enc24_ok]|cbn; lia].
    rewrite E, uint32to24_enc. reflexivity.
  - ty. unfold trace_reference_parse. set (b := [x; y; z] ++ enc24 tid).
    change (slice b 0 3) with (Ok [x; y; z]). change (slice b 3 6) with (Ok (enc24 tid)). cbn [bind]. rewrite D. cbn [bind fst snd].
    change (len b <? 3)%nat with false. change (len b <? 6)%nat with false. cbv iota. rewrite B. reflexivity.
  - unfold acc_trace_id. ty. set (b := [x; y; z] ++ enc24 tid). change (slice b 3 6) with (Ok (enc24 tid)).
    change (len b <? 6)%nat with false. cbn [bind orb]. cbv iota. rewrite B. reflexivity.
  - unfold acc_mcc_mnc. ty. apply D.
Qed.

(** ** FQ-CSID *)
Lemma csids_writes l : forall done b, (len done + len (csid_octets l) <= len b)%nat ->
  csids_mto (len b) l (len done) (done ++ skipn (len done) b)
  = Ok ((done ++ csid_octets l) ++ skipn (len (done ++ csid_octets l)) b).
Proof.
  induction l as [|c r IH]; intros done b L; cbn [csids_mto csid_octets flat_map] in *.
  - rewrite app_nil_r. reflexivity.
  - rewrite app_length in L. cbn [enc16 List.length] in L. replace (len b <? len done + 2)%nat with false by lia.
    rewrite (w_on _ _ _ _ _ _ (put16_writes c)) by (cbn [enc16 List.length]; lia). cbn [bind].
    replace (len done + 2)%nat with (len (done ++ enc16 c)) by (rewrite app_length; reflexivity).
    rewrite IH by (rewrite app_length; cbn [enc16 List.length]; unfold csid_octets; lia). unfold csid_octets. rewrite <- !app_assoc. reflexivity.
Qed.
Lemma csids_back l : Forall (fun c => c < 2 ^ 16) l -> csids_of (csid_octets l) = l.
Proof.
  induction 1 as [|c r Hc Hr IH]; [reflexivity|]. cbn [csid_octets flat_map enc16 app csids_of]. fold (csid_octets r). rewrite IH.
  f_equal. change (2 ^ 16) with 65536 in Hc. lia.
Qed.
Lemma csid_octets_len l : len (csid_octets l) = (List.length l * 2)%nat.
Proof. induction l as [|c r IH]; [reflexivity|]. cbn [csid_octets flat_map]. rewrite app_length. fold (csid_octets r). cbn [enc16 List.length]. lia. Qed.
Lemma csid_octets_ok l : bytes_ok (csid_octets l).
Proof. induction l as [|c r IH]; [constructor|]. cbn [csid_octets flat_map]. apply bytes_ok_app; [apply enc16_ok|exact IH]. Qed.
Lemma first_nibbles t n : t < 3 -> n < 16 ->
  N.lor (N.land (u8 (N.shiftl t 4)) 240) (N.land n 15) = 16 * t + n /\
  N.land (N.shiftr (16 * t + n) 4) 15 = t /\ N.land (16 * t + n) 15 = n.
Proof.
  intros Ht Hn. assert (B : forallb (fun t => forallb (fun n => (N.lor (N.land (u8 (N.shiftl t 4)) 240) (N.land n 15) =? 16 * t + n) &&
    ((N.land (N.shiftr (16 * t + n) 4) 15 =? t) && (N.land (16 * t + n) 15 =? n))) (below 16)) (below 3) = true) by (vm_compute; reflexivity).
  rewrite forallb_forall in B. specialize (B t (below_complete 3 t Ht)). cbv beta in B.
  rewrite forallb_forall in B. specialize (B n (below_complete 16 n Hn)). cbv beta in B.
  rewrite !andb_true_iff, !N.eqb_eq in B. exact B.
Qed.
Lemma node_facts n t o : (forall ip, n = NodeIP ip -> bytes_ok ip) -> node_octets n t o ->
  t < 3 /\ bytes_ok o /\ len o = (if t =? 1 then 16%nat else 4%nat) /\
  forall csids, new_fqcsid_fields n csids = Some (FqCsid t (u8 (N.of_nat (List.length csids))) o csids).
Proof.
  intros Hb. destruct n as [ip|s]; cbn [node_octets new_fqcsid_fields].
  - specialize (Hb ip eq_refl). intros [(E & ->)|(E & [L _] & -> & ->)].
    + assert (O : octets 4 o) by (apply (to4_octets (Some ip)); [intros b X; injection X as <-; exact Hb|exact E]).
      destruct O as [O1 O2]. rewrite E. repeat split; try assumption; lia.
    + rewrite E. repeat split; try assumption; lia.
  - intros (E & L & ->). rewrite E. apply hex_decode_ok in E. repeat split; try assumption; try lia. apply E.
Qed.
Lemma fqcsid_all n csids t o : (forall ip, n = NodeIP ip -> bytes_ok ip) -> node_octets n t o ->
  (List.length csids < 16)%nat -> Forall (fun c => c < 2 ^ 16) csids ->
  exists i, made g (new_fqcsid g n csids) 132 ([16 * t + N.of_nat (List.length csids)] ++ o ++ csid_octets csids) i /\
    acc_fqcsid i = Ok (FqCsid t (N.of_nat (List.length csids)) o csids) /\
    acc_node_id_type i = Ok t /\ acc_csids i = Ok csids /\ (csids <> [] -> acc_node_id i = Ok o).
Proof.
  intros Hb Hn Hl Hc. destruct (node_facts n t o Hb Hn) as (Ht & Ho & Lo & E).
  set (k := N.of_nat (List.length csids)). assert (Hk : k < 16) by (unfold k; lia).
  destruct (first_nibbles t k Ht Hk) as (N1 & N2 & N3).
  assert (Ek : u8 k = k) by (unfold u8; apply N.mod_small; lia).
  pose proof (csid_octets_len csids) as Lc.
  exists (new2 g 132 0 ([16 * t + k] ++ o ++ csid_octets csids)). split.
  - unfold new_fqcsid. rewrite E. fold k. rewrite Ek. apply new_or_nil_made; [|lia| |].
    + unfold fqcsid_mto, fqcsid_mlen. cbn [fc_type fc_num fc_node fc_csids]. rewrite len_zeros, N1.
      replace (if (t =? 0) || (t =? 2) then 4%nat else if t =? 1 then 16%nat else 0%nat) with (len o).
      2:{ rewrite Lo. assert (T : t = 0 \/ t = 1 \/ t = 2) by lia. decompose [or] T; subst t; reflexivity. }
      set (m := (1 + len o + List.length csids * 2)%nat).
      replace (m <? 1)%nat with false by (unfold m; lia). replace (m <? 1 + len o)%nat with false by (unfold m; lia).
      rewrite (w_start (zeros m)). rewrite w_set by (rewrite ?len_zeros; unfold m; cbn; lia). cbn [bind].
      rewrite w_copy by (rewrite ?len_zeros; unfold m; cbn; lia). cbn [bind].
      change ([] ++ [16 * t + k]) with [16 * t + k].
      pose proof (csids_writes csids ([16 * t + k] ++ o) (zeros m)) as W. rewrite len_zeros in W.
      replace (1 + len o)%nat with (len ([16 * t + k] ++ o)) by (rewrite app_length; reflexivity).
      rewrite W by (rewrite app_length; unfold m; cbn; lia).
      rewrite w_end by (rewrite !app_length; unfold m; cbn; lia). rewrite <- app_assoc. reflexivity.
    + repeat apply bytes_ok_app; [repeat constructor; unfold is_byte; lia|exact Ho|apply csid_octets_ok].
    + rewrite !app_length, Lc, Lo. cbn [List.length]. destruct (t =? 1); lia.
  - unfold acc_fqcsid. rewrite typed_new2. unfold fqcsid_parse, acc_node_id_type, acc_node_id, acc_csids. ty.
    set (b := [16 * t + k] ++ o ++ csid_octets csids).
    assert (Lb : len b = (1 + len o + List.length csids * 2)%nat) by (unfold b; rewrite !app_length, Lc; reflexivity).
    change (idx b 0) with (Ok (16 * t + k)). cbn [bind]. rewrite N2, N3, Lb.
    replace (1 + len o + List.length csids * 2 <? 1)%nat with false by lia. cbv iota.
    assert (S1 : slice b 1 (1 + len o) = Ok o) by (unfold b; rewrite slice_app_eq by (cbn; lia); reflexivity).
    assert (S2 : slice_from b (1 + len o) = Ok (csid_octets csids)).
    { unfold b. rewrite app_assoc. apply slice_from_app. rewrite app_length. reflexivity. }
    assert (S3 : skipn (1 + len o) b = csid_octets csids).
    { unfold b. rewrite app_assoc. rewrite skipn_app, skipn_all2 by (rewrite app_length; cbn; lia).
      rewrite app_length. cbn [List.length app]. replace (1 + len o - (1 + len o))%nat with 0%nat by lia. reflexivity. }
    assert (T : t = 1 \/ (t = 0 \/ t = 2)) by lia.
    assert (Bk : csids_of (csid_octets csids) = csids) by (apply csids_back, Hc).
    destruct T as [->|T].
    + cbn [N.eqb Pos.eqb orb] in *. change (1 =? 1) with true in *. cbv iota in *. rewrite Lo in *.
      change (1 + 16)%nat with 17%nat in *.
      replace (17 + List.length csids * 2 <? 17)%nat with false by lia. rewrite S1, S2, S3. cbn [bind]. rewrite Bk.
      split; [reflexivity|]. split; [reflexivity|]. split; [reflexivity|]. intros Hne.
      replace (17 + List.length csids * 2 <? 18)%nat with false by (destruct csids; [congruence|cbn; lia]). reflexivity.
    + assert (X : (t =? 0) || (t =? 2) = true) by (destruct T as [->| ->]; reflexivity).
      assert (Y : (t =? 1) = false) by (destruct T as [->| ->]; reflexivity).
      rewrite X. rewrite Y in Lo. cbv iota in *. rewrite Lo in *. change (1 + 4)%nat with 5%nat in *.
      replace (5 + List.length csids * 2 <? 5)%nat with false by lia. rewrite S1, S2, S3. cbn [bind]. rewrite Bk.
      split; [reflexivity|]. split; [reflexivity|]. split; [reflexivity|]. intros Hne.
      replace (5 + List.length csids * 2 <? 6)%nat with false by (destruct csids; [congruence|cbn; lia]). reflexivity.
Qed.
End G.
