(** The accessors of gtpv2/ie answer exactly for the IEs of V2AnswerSpec.v. *)
From Coq Require Import String ZArith Lia.
From Verif Require Import Base BaseLemmas Utils UtilsProofs V2IE V2Codec V2Codec2 V2Ind V2Pco V2Tft V2Uli V2Acc AccSpec TvAnswerProofs V2AnswerSpec.
Open Scope N_scope.
Open Scope list_scope.

Lemma ends_fine {A} (f : ie2 -> res A) i : ends f i = Ok tt <-> fine (f i).
Proof. unfold ends, fine. destruct (f i); split; try discriminate; try (intros [v H]; discriminate H); eauto. Qed.
Lemma fine_plmn s : (3 <= len s)%nat -> fine (decode_plmn s).
Proof.
  intros H. unfold decode_plmn. repeat (apply fine_bind; [apply fine_slice; lia|let E := fresh in intros ? E; apply slice_len in E]; apply fine_bind; [first [apply fine_mcc|apply fine_mnc]; lia|intros ? _]).
  apply fine_ok.
Qed.
Lemma fine_fqdn_loop fuel : forall b off, (off <= len b)%nat -> (len b < fuel + off)%nat -> fine (decode_fqdn_loop fuel b off).
Proof.
  induction fuel as [|fuel IH]; intros b off Ho Hf; [lia|]. cbn [decode_fqdn_loop]. destruct (off <? len b)%nat eqn:E; [|apply fine_ok].
  apply fine_bind; [apply fine_idx; lia|]. intros x _. cbv zeta. destruct (len b <? _)%nat eqn:F; [apply fine_ok|].
  apply fine_bind; [apply fine_slice; lia|]. intros s _. apply fine_bind; [apply IH; lia|]. intros; apply fine_ok.
Qed.
Lemma fine_fqdn b : fine (decode_fqdn b).
Proof. unfold decode_fqdn. apply fine_bind; [apply fine_fqdn_loop; lia|]. intros; apply fine_ok. Qed.
Lemma err_fine_iff {A} e (P : Prop) : ~ P -> (fine (@Err A e) <-> P).
Proof. intros H. split; [intros G; elim (err_fine _ G)|contradiction]. Qed.
Lemma fine_iff {A} (r : res A) (P : Prop) : P -> fine r -> (fine r <-> P).
Proof. tauto. Qed.

(** every row of the list, one by one *)
Fixpoint served_by (rows : list need) (t : N) (p : bytes) : Prop :=
  match rows with
  | [] => False
  | (t', cs, n) :: r =>
      (t = t' /\ fold_right (fun c Q => N.land (nth (fst (fst c)) p 0) (snd (fst c)) = snd c /\ Q) True cs /\ (N.to_nat n <= len p)%nat) \/ served_by r t p
  end.
Lemma serves_by rows t p : serves rows t p <-> served_by rows t p.
Proof.
  assert (F : forall cs, Forall (fun c : nat * N * N => N.land (nth (fst (fst c)) p 0) (snd (fst c)) = snd c) cs <->
     fold_right (fun c Q => N.land (nth (fst (fst c)) p 0) (snd (fst c)) = snd c /\ Q) True cs).
  { induction cs as [|c cs IH]; cbn [fold_right]; [split; auto|]. rewrite Forall_cons_iff, IH. reflexivity. }
  unfold serves. induction rows as [|[[t' cs] n] r IH]; cbn [served_by].
  - split; [intros (a & b & [] & _)|contradiction].
  - rewrite <- IH, <- F. split.
    + intros (a & b & [E|E] & H & L); [injection E; intros; subst; left; repeat split; auto; lia|right; eauto].
    + intros [(-> & H & L)|(a & b & E & H & L)]; [exists cs, n; repeat split; auto; [left; reflexivity|lia]|exists a, b; repeat split; auto; right; exact E].
Qed.

Ltac fine2_tac :=
  repeat first [ apply fine_ok | apply fine_str | apply fine_fqdn | (apply fine_plmn; lia) | (apply fine_be16; lia) | (apply fine_be32; lia)
   | (apply fine_idx; lia) | (apply fine_slice; lia) | (apply fine_slice_from; lia)
   | (apply fine_bind; [|let v := fresh "v" in let E := fresh "E" in intros v E; try apply slice_len in E]) ].
(** one accessor: split on the type and on the length tests, then decide *)
Ltac types_tac :=
  repeat match goal with |- context [N.eqb (i2_type ?i) ?t] => let e := fresh "e" in destruct (N.eqb_spec (i2_type i) t) as [e|e]; cbn [orb negb] end.
Ltac lens_tac :=
  repeat match goal with |- context [if (?a <? ?b)%nat then _ else _] => let e := fresh "L" in destruct (a <? b)%nat eqn:e
                       | |- context [if (?a <=? ?b)%nat then _ else _] => let e := fresh "L" in destruct (a <=? b)%nat eqn:e end.
Ltac no_row := cbn [served_by any only fold_right fst snd]; intros G; repeat (destruct G as [(? & ? & ?)|G]; [first [congruence|lia]|]); exact G.
Ltac some_row := cbn [served_by any only fold_right fst snd]; repeat first [left; repeat split; [assumption|lia] | right].
Ltac decide_tac :=
  match goal with
  | |- fine (Err _) <-> _ => apply err_fine_iff; no_row
  | |- fine _ <-> _ => apply fine_iff; [some_row|fine2_tac]
  end.
Ltac answer2_tac := rewrite ends_fine, serves_by; types_tac; lens_tac; decide_tac.

Lemma not_fine_bind {A B} (r : res A) (f : A -> res B) : (forall v, r = Ok v -> ~ fine (f v)) -> ~ fine (bind r f).
Proof. intros H. destruct r as [v|e|]; cbn [bind]; [apply H; reflexivity|apply err_fine|intros [v G]; discriminate G]. Qed.
Lemma not_fine_iff {A} (r : res A) (P : Prop) : ~ fine r -> ~ P -> (fine r <-> P).
Proof. tauto. Qed.
(** one octet *)
Lemma octet_256 (f : N -> bool) x : x < 256 -> forallb f (map N.of_nat (seq 0 256)) = true -> f x = true.
Proof.
  intros H F. rewrite forallb_forall in F. apply F. apply in_map_iff. exists (N.to_nat x). split; [lia|apply in_seq; lia].
Qed.
Lemma octet_all x : x < 256 -> N.land x 255 = x.
Proof. intros H. apply N.eqb_eq. apply (octet_256 (fun x => N.land x 255 =? x)); [exact H|vm_compute; reflexivity]. Qed.
Lemma octet_high x : x < 256 -> N.land (N.shiftr x 4) 15 * 16 = N.land x 240.
Proof. intros H. apply N.eqb_eq. apply (octet_256 (fun x => N.land (N.shiftr x 4) 15 * 16 =? N.land x 240)); [exact H|vm_compute; reflexivity]. Qed.
Lemma octet_low x : x < 256 -> (hasbit 0 x = true /\ N.land x 1 = 1) \/ (hasbit 0 x = false /\ N.land x 1 = 0).
Proof.
  intros H. assert (E : (if hasbit 0 x then N.land x 1 =? 1 else N.land x 1 =? 0) = true).
  { apply (octet_256 (fun x => if hasbit 0 x then N.land x 1 =? 1 else N.land x 1 =? 0)); [exact H|vm_compute; reflexivity]. }
  destruct (hasbit 0 x); apply N.eqb_eq in E; auto.
Qed.
Lemma octet_addr x : x < 256 -> N.land x 192 = (if hasbit 7 (N.land x 192) then 128 else 0) + (if hasbit 6 (N.land x 192) then 64 else 0).
Proof.
  intros H. apply N.eqb_eq.
  apply (octet_256 (fun x => N.land x 192 =? (if hasbit 7 (N.land x 192) then 128 else 0) + (if hasbit 6 (N.land x 192) then 64 else 0))); [exact H|vm_compute; reflexivity].
Qed.
Lemma octet_at_ok (p : bytes) k : bytes_ok p -> nth k p 0 < 256.
Proof. intros H. destruct (Nat.lt_ge_cases k (len p)) as [L|L]; [|rewrite nth_overflow by exact L; reflexivity]. unfold bytes_ok in H. rewrite Forall_forall in H. apply H, nth_In, L. Qed.

(** the octets that matter are read and the tests on them decided *)
Ltac split_tac := repeat first
  [ match goal with |- context [N.eqb (i2_type ?i) ?t] => let e := fresh "e" in destruct (N.eqb_spec (i2_type i) t) as [e|e]; cbn [orb negb] end
  | match goal with |- context [if (?a <? ?b)%nat then _ else _] => let e := fresh "L" in destruct (a <? b)%nat eqn:e end
  | match goal with |- context [if (?a <=? ?b)%nat then _ else _] => let e := fresh "L" in destruct (a <=? b)%nat eqn:e end
  | match goal with |- context [idx ?p ?k] => rewrite (idx_ok p k 0) by lia; cbn [bind] end
  | match goal with |- context [N.eqb ?x ?v] => let e := fresh "Q" in destruct (N.eqb_spec x v) as [e|e]; cbn [orb negb] end ].
Ltac end_tac := first [exfalso; lia | match goal with
  | |- fine (Err _) <-> _ => apply err_fine_iff; lia
  | |- fine _ <-> _ => apply fine_iff; [lia|solve [fine2_tac]]
  end].
Section Content.
Context (i : ie2) (Hb : bytes_ok (i2_payload i)).
Let O0 : nth 0 (i2_payload i) 0 < 256 := octet_at_ok (i2_payload i) 0 Hb.
Let O1 : nth 1 (i2_payload i) 0 < 256 := octet_at_ok (i2_payload i) 1 Hb.
Ltac start := cbn [served_by any only fold_right fst snd]; rewrite ?(octet_all _ O0), ?(octet_all _ O1).
Lemma gre_answers : fine (acc_gre_key i) <-> served_by [any 87 6; only 90 0 255 4 9; only 90 0 255 16 21] (i2_type i) (i2_payload i).
Proof. start. unfold acc_gre_key. cbv zeta. split_tac; end_tac. Qed.
Lemma teid_answers : fine (acc_teid i) <-> served_by [any 87 5; only 91 0 255 4 9; only 91 0 255 16 21] (i2_type i) (i2_payload i).
Proof. start. unfold acc_teid. cbv zeta. split_tac; end_tac. Qed.
Lemma ebis_answers : fine (acc_ebis i) <-> served_by [only 90 0 255 4 10; only 90 0 255 16 22] (i2_type i) (i2_payload i).
Proof. start. unfold acc_ebis, typed. cbv zeta. split_tac; end_tac. Qed.
Lemma fqcsid_answers : fine (acc_fqcsid i) <-> served_by [only 132 0 240 0 5; only 132 0 240 32 5; only 132 0 240 16 17] (i2_type i) (i2_payload i).
Proof. start. pose proof (octet_high _ O0). unfold acc_fqcsid, fqcsid_parse, typed. cbv zeta. split_tac; end_tac. Qed.
Lemma node_answers : fine (acc_node_id i) <-> served_by [only 132 0 240 0 6; only 132 0 240 32 6; only 132 0 240 16 18] (i2_type i) (i2_payload i).
Proof. start. pose proof (octet_high _ O0). unfold acc_node_id, typed. cbv zeta. split_tac; end_tac. Qed.
Lemma csids_answers : fine (acc_csids i) <-> served_by [only 132 0 240 0 1; only 132 0 240 32 1; only 132 0 240 16 1] (i2_type i) (i2_payload i).
Proof. start. pose proof (octet_high _ O0). unfold acc_csids, typed. cbv zeta. split_tac; end_tac. Qed.
Lemma pasi_answers : fine (acc_pasi i) <-> served_by [only 186 0 1 0 2; only 186 0 1 1 3] (i2_type i) (i2_payload i).
Proof. start. unfold acc_pasi, pasi_parse, typed. cbv zeta. split_tac; try end_tac; destruct (octet_low _ O0) as [[E F]|[E F]]; rewrite E; end_tac. Qed.
Lemma ppi_answers : fine (acc_ppi i) <-> served_by [only 186 0 1 1 3] (i2_type i) (i2_payload i).
Proof.
  start. unfold acc_ppi, pasi_parse, typed. cbv zeta. split_tac; cbn [bind]; try end_tac; destruct (octet_low _ O0) as [[E F]|[E F]]; rewrite ?E; cbn [bind pa_flags]; rewrite ?E; end_tac.
Qed.
Lemma hsgw_answers : fine (acc_hsgw_address i) <-> served_by [only 90 0 255 4 5; only 90 0 255 16 17] (i2_type i) (i2_payload i).
Proof. start. unfold acc_hsgw_address, acc_ip, typed. cbv zeta. destruct (N.eqb_spec (i2_type i) 90) as [E|E]; [|end_tac]. split_tac; end_tac. Qed.
Lemma sgw_answers : fine (acc_sgw_address i) <-> served_by [only 91 1 255 4 6; only 91 1 255 16 18] (i2_type i) (i2_payload i).
Proof. start. unfold acc_sgw_address, acc_ip, typed. cbv zeta. destruct (N.eqb_spec (i2_type i) 91) as [E|E]; [|end_tac]. split_tac; end_tac. Qed.
Lemma uci_answers : fine (acc_uci i) <-> served_by [any 145 8] (i2_type i) (i2_payload i).
Proof.
  start. unfold acc_uci, uci_parse, typed. cbv zeta. destruct (N.eqb_spec (i2_type i) 145) as [E|E]; [|end_tac]. destruct (len _ <? 3)%nat eqn:L; [end_tac|].
  destruct (_ <=? 7)%nat eqn:M; [|end_tac]. apply not_fine_iff; [|lia]. repeat (apply not_fine_bind; intros). apply err_fine.
Qed.
Lemma fteid_parse_answers p : bytes_ok p -> (fine (fteid_parse p) <->
  (5 <= len p)%nat /\ (5 + (if hasbit 7 (N.land (nth 0 p 0%N) 192) then 4 else 0) + (if hasbit 6 (N.land (nth 0 p 0%N) 192) then 16 else 0) <= len p)%nat).
Proof.
  intros H. unfold fteid_parse. cbv zeta. destruct (_ <? 5)%nat eqn:L; [end_tac|]. rewrite (idx_ok p 0 0) by lia. cbn [bind].
  destruct (fine_slice p 1 5) as [s Hs]; [lia|lia|]. rewrite Hs. cbn [bind]. apply slice_len in Hs.
  destruct (fine_be32 s) as [v Hv]; [lia|]. rewrite Hv. cbn [bind].
  destruct (hasbit 7 _); [destruct (len p <? 9)%nat eqn:M; [cbn [bind]; apply err_fine_iff; destruct (hasbit 6 _); lia|];
    destruct (fine_slice p 5 9) as [a Ha]; [lia|lia|]; rewrite Ha|]; cbn [bind]; (destruct (hasbit 6 _); [|apply fine_iff; [lia|fine2_tac]]).
  - destruct (len p <? 9 + 16)%nat eqn:K; [cbn [bind]; apply err_fine_iff; lia|]. apply fine_iff; [lia|fine2_tac].
  - destruct (len p <? 5 + 16)%nat eqn:K; [cbn [bind]; apply err_fine_iff; lia|]. apply fine_iff; [lia|fine2_tac].
Qed.
Lemma fteid_answers : fine (acc_fteid i) <-> served_by [only 87 0 192 0 5; only 87 0 192 128 9; only 87 0 192 64 21; only 87 0 192 192 25] (i2_type i) (i2_payload i).
Proof.
  start. unfold acc_fteid, typed. destruct (N.eqb_spec (i2_type i) 87) as [E|E]; [|end_tac]. rewrite (fteid_parse_answers _ Hb).
  pose proof (octet_addr _ O0) as F. destruct (hasbit 7 _), (hasbit 6 _); lia.
Qed.
End Content.
Section G.
Context (g : N -> bool).
Definition holds2 (i : ie2) (a : string * (ie2 -> res unit)) : Prop :=
  match find (fun p => String.eqb (fst p) (fst a)) answers2 with
  | Some r => snd a i = Ok tt <-> serves (snd r) (i2_type i) (i2_payload i)
  | None => True
  end.
Ltac pick := unfold holds2; cbn [fst snd];
  match goal with |- match ?r with _ => _ end => let r' := eval vm_compute in r in change r with r' end; cbv iota; cbn [fst snd]; try exact I.
Ltac unf2 := unfold acc_u8, acc_u16, acc_u32, acc_string, acc_fqdn, acc_ebi, acc_charging_id, acc_csg_id, acc_cmi, acc_ptmsi_sig, acc_enterprise_id,
  acc_private_extension, acc_if_type, acc_cause_flags, acc_cause, acc_ambr, ambr_parse, acc_ambr_up, acc_ambr_down, acc_priority_level, acc_arp, acc_bqos, bqos_parse, acc_fqos, fqos_parse,
  acc_qci, acc_umbr, acc_dmbr, acc_ugbr, acc_dgbr, rate, acc_bearer_flags, acc_mbms_flags, acc_ran_nas_cause, ran_nas_parse, acc_imsi, acc_msisdn, acc_mei, digits_trimmed,
  acc_plmn_id, acc_serving_network, acc_plmn, acc_cnid, acc_mme_group, acc_mme_code, acc_mtmsi, acc_uci, uci_parse, acc_access_mode, acc_trace_id, acc_node_id_type,
  acc_delay_value, acc_timer, acc_throttling, throttling_parse, acc_time_zone, acc_dst, acc_timestamp, acc_indication,
  via_context, typed, value_u8, value_u16, value_u32, value_string, value_fqdn; cbv beta zeta.
Lemma answers2_exact i : bytes_ok (i2_payload i) -> g (i2_type i) = false -> i2_type i <> 93 -> Forall (holds2 i) (accessors g).
Proof.
  intros Hb Hg Hc. unfold accessors, u8_ies, u16_ies, u32_ies, string_ies, fqdn_ies. cbn [map app fst snd].
  repeat (apply Forall_cons; [pick|]); try apply Forall_nil.
  all: rewrite ends_fine, serves_by.
  all: try solve [unf2; rewrite ?Hg; types_tac; try contradiction; lens_tac; decide_tac].
  all: first [exact (fteid_answers i Hb) | exact (gre_answers i Hb) | exact (teid_answers i Hb) | exact (sgw_answers i Hb) | exact (hsgw_answers i Hb) | exact (ebis_answers i Hb)
   | exact (pasi_answers i Hb) | exact (ppi_answers i Hb) | exact (uci_answers i Hb) | exact (fqcsid_answers i Hb) | exact (node_answers i Hb) | exact (csids_answers i Hb) | idtac].
  (* PriorityLevel *)
  unf2. rewrite ?Hg. cbn [served_by any only fold_right fst snd]. split_tac; cbn [bind]; end_tac.
Qed.
End G.
