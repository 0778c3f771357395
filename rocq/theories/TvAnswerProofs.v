(** The accessors of gtpv1/ie and gtpv0/ie answer exactly for the IEs of TvAnswerSpec.v. *)
From Coq Require Import String ZArith Lia.
From Verif Require Import Base BaseLemmas Utils UtilsProofs TvIE V2Codec V2Codec2 V2Pco TvCodec TvCodecSpec TvCodecProofs4 TvAnswerSpec.
Open Scope N_scope.
Open Scope list_scope.

Definition fine {A} (r : res A) : Prop := exists v, r = Ok v.
Lemma fine_ok {A} (v : A) : fine (Ok v). Proof. exists v. reflexivity. Qed.
Lemma fine_bind {A B} (r : res A) (f : A -> res B) : fine r -> (forall v, r = Ok v -> fine (f v)) -> fine (bind r f).
Proof. intros [v ->] H. apply H. reflexivity. Qed.
Lemma fine_idx {A} (b : list A) i : (i < List.length b)%nat -> fine (idx b i).
Proof. intros H. destruct b as [|d b]; [cbn in H; lia|]. rewrite (idx_ok _ _ d) by exact H. apply fine_ok. Qed.
Lemma fine_slice {A} (b : list A) lo hi : (lo <= hi)%nat -> (hi <= List.length b)%nat -> fine (slice b lo hi).
Proof. intros. rewrite slice_ok by assumption. apply fine_ok. Qed.
Lemma fine_slice_from {A} (b : list A) lo : (lo <= List.length b)%nat -> fine (slice_from b lo).
Proof. intros. rewrite slice_from_ok by assumption. apply fine_ok. Qed.
Lemma fine_be16 s : (2 <= len s)%nat -> fine (be16 s).
Proof. intros H. destruct s as [|a [|b s]]; cbn in H; try lia. apply fine_ok. Qed.
Lemma fine_be32 s : (4 <= len s)%nat -> fine (be32 s).
Proof. intros H. destruct s as [|a [|b [|c [|d s]]]]; cbn in H; try lia. apply fine_ok. Qed.
Lemma fine_be16_at n p : (n + 2 <= len p)%nat -> fine (be16_at n p).
Proof. intros H. unfold be16_at. apply fine_bind; [apply fine_slice; lia|]. intros s Hs. apply slice_len in Hs. apply fine_be16. lia. Qed.
Lemma fine_str b c : fine (swapped_to_str b c).
Proof.
  unfold swapped_to_str. destruct b; [apply fine_ok|]. cbv zeta. destruct c; [|apply fine_ok]. unfold slice_to. apply fine_slice; lia.
Qed.
Lemma fine_mcc s : len s = 2%nat -> fine (decode_mcc s).
Proof. intros H. destruct s as [|x [|y [|]]]; try discriminate H. unfold decode_mcc. apply fine_ok. Qed.
Lemma fine_mnc s : len s = 2%nat -> fine (decode_mnc s).
Proof.
  intros H. unfold decode_mnc. cbv zeta. pose proof (hex_encode_len s) as L. rewrite H in L.
  apply fine_bind; [apply fine_idx; lia|]. intros v _. destruct (_ =? _); repeat (apply fine_bind; [apply fine_idx; lia|intros ? _]); apply fine_ok.
Qed.
Lemma ends1_fine {A} (f : ie1 -> res A) i : ends1 f i = Ok tt <-> fine (f i).
Proof.
  unfold ends1, fine. destruct (f i); split; try discriminate; try (intros [v H]; discriminate H); eauto. 
Qed.
Lemma err_fine {A} e : ~ fine (@Err A e). Proof. intros [v H]. discriminate H. Qed.
Lemma at_least_fine {A} n (f : bytes -> res A) p : ((n <= len p)%nat -> fine (f p)) -> (fine (at_least n f p) <-> (n <= len p)%nat).
Proof.
  intros H. unfold at_least. destruct (len p <? n)%nat eqn:E.
  - split; [intros G; elim (err_fine _ G)|lia].
  - split; [lia|]. intros _. apply H. lia.
Qed.
Ltac fine_tac :=
  repeat first [ apply fine_ok | apply fine_str | apply fine_be16_at; lia | (apply fine_be16; lia) | (apply fine_be32; lia)
   | (apply fine_idx; lia) | (apply fine_slice; lia) | (apply fine_slice_from; lia) | (apply fine_mcc; lia) | (apply fine_mnc; lia)
   | (apply fine_bind; [|let v := fresh "v" in let E := fresh "E" in intros v E; try apply slice_len in E]) ].
Lemma served_hd n t p rows : served ((t, n) :: rows) t p <-> n <= N.of_nat (len p) \/ served rows t p.
Proof.
  unfold served. split.
  - intros (m & [E|E] & L); [injection E as ->; left; exact L|right; eauto].
  - intros [L|(m & E & L)]; [exists n; split; [left; reflexivity|exact L]|exists m; split; [right; exact E|exact L]].
Qed.
Lemma served_tl n t t' p rows : t <> t' -> (served ((t', n) :: rows) t p <-> served rows t p).
Proof.
  intros H. unfold served. split.
  - intros (m & [E|E] & L); [injection E; intros; congruence|eauto].
  - intros (m & E & L). exists m. split; [right; exact E|exact L].
Qed.
Lemma served_nil t p : ~ served [] t p.
Proof. intros (n & [] & _). Qed.
Definition row_of (rows : list (string * list (N * N))) (s : string) : option (list (N * N)) :=
  match find (fun p => String.eqb (fst p) s) rows with Some p => Some (snd p) | None => None end.

(** one accessor, one row for each type *)
Ltac answer_tac :=
  rewrite ends1_fine;
  unfold acc8, acc32, acc_raw, acc_address, acc_flow, masked, typed1, octet_at;
  repeat match goal with |- context [N.eqb (i1_type ?i) ?t] => let e := fresh "e" in destruct (N.eqb_spec (i1_type i) t) as [e|e]; cbn [orb]; [rewrite ?e|] end;
  repeat first [rewrite served_hd | rewrite served_tl by (assumption || discriminate)];
  match goal with
  | |- fine (Err _) <-> _ => split; [intros G; elim (err_fine _ G)|intros G; elim (served_nil _ _ G)]
  | |- fine (at_least _ _ _) <-> _ => rewrite at_least_fine by (intros; fine_tac); split; [intros G; left; lia|intros [G|G]; [lia|elim (served_nil _ _ G)]]
  | |- fine (Ok _) <-> _ => split; [intros _; left; lia|intros _; apply fine_ok]
  | |- _ => idtac
  end.
Ltac unf := unfold acc_teid1, acc_ptmsi_sig1, acc_imsi1, acc_msisdn1, acc_imeisv, acc_ext_id, acc_ext_value, acc_mcc1, acc_mnc1, acc_lac1,
  acc_pdp_org, acc_pdp_number, acc_rand, acc_sres, acc_kc, acc_quintuplet, acc_ms_time_zone, acc_ms_dst, acc_timestamp1,
  acc_mcc0, acc_mnc0, acc_lac0, acc_rac0, acc_qos_delay, acc_qos_reliability, acc_qos_peak, acc_qos_precedence, acc_qos_mean.
Definition row_holds (rows : list (string * list (N * N))) (i : ie1) (a : string * list N * (ie1 -> res unit)) : Prop :=
  match row_of rows (fst (fst a)) with Some r => snd a i = Ok tt <-> served r (i1_type i) (i1_payload i) | None => True end.
Ltac row_tac := unfold row_holds; cbn [fst snd];
     match goal with |- match ?r with _ => _ end => let r' := eval vm_compute in r in change r with r' end; cbv iota; try exact I; try solve [unf; answer_tac].
(** the length is tested before the type *)
Ltac rows_of G := destruct G as (?n & G & ?L); cbn [In] in G; repeat destruct G as [G|G]; try contradiction; injection G; intros.
Ltac late_tac := rewrite ends1_fine; unfold acc_teid1, acc_timestamp1, acc_nsapi0, acc_flow_data, acc_flow, typed1;
  match goal with |- context [if ?b then Err _ else _] => destruct b eqn:?; [split; intros G; [elim (err_fine _ G)|rows_of G; lia]|] end;
  repeat match goal with |- context [N.eqb (i1_type ?i) ?t] => let e := fresh "e" in destruct (N.eqb_spec (i1_type i) t) as [e|e]; cbn [orb]; [rewrite ?e|] end;
  rewrite ?N.eqb_refl; rewrite ?at_least_fine by (intros; fine_tac);
  repeat first [rewrite served_hd | rewrite served_tl by (assumption || discriminate)];
  match goal with
  | |- fine (Err _) <-> _ => split; [intros G; elim (err_fine _ G)|intros G; elim (served_nil _ _ G)]
  | |- fine _ <-> _ => split; [intros _; left; lia|intros _; fine_tac]
  | |- _ => split; [intros G; left; lia|intros [G|G]; [lia|elim (served_nil _ _ G)]]
  end.
Lemma answers1_exact i : Forall (row_holds answers1 i) accessors1.
Proof.
  unfold accessors1, octet_ies1, word_ies1, raw_ies1. cbn [map app fst snd].
  repeat (apply Forall_cons; [row_tac|]); try apply Forall_nil; late_tac.
Qed.
Lemma answers0_exact i : Forall (row_holds answers0 i) accessors0.
Proof.
  unfold accessors0, octet_ies0, word_ies0. cbn [map app fst snd].
  repeat (apply Forall_cons; [row_tac|]); try apply Forall_nil.
  - rewrite ends1_fine, acc_apn0_fails. split; intros G; [elim (err_fine _ G)|elim (served_nil _ _ G)].
  - late_tac.
  - late_tac.
Qed.
(** ** The accessors that look into the payload *)
Lemma fine_Ok {A} (r : res A) : fine r <-> exists v, r = Ok v.
Proof. reflexivity. Qed.
Lemma rac_answers i : (exists v, acc_rac1 i = Ok v) <->
  (i1_type i = 3 /\ (6 <= len (i1_payload i))%nat) \/ (i1_type i = 152 /\ (7 <= len (i1_payload i))%nat /\ nth 0 (i1_payload i) 0 = 2).
Proof.
  rewrite <- fine_Ok. unfold acc_rac1. destruct (N.eqb_spec (i1_type i) 3) as [E|E].
  - rewrite at_least_fine by (intros; unfold octet_at; fine_tac). rewrite E. split; [auto|intros [[_ H]|[H _]]; [exact H|discriminate H]].
  - destruct (N.eqb_spec (i1_type i) 152) as [F|F].
    + unfold at_least. destruct (_ <? _)%nat eqn:L.
      * split; [intros G; elim (err_fine _ G)|intros [[G _]|(_ & G & _)]; [contradiction|lia]].
      * rewrite (idx_ok _ 0 0) by lia. cbn [bind]. destruct (N.eqb_spec (nth 0 (i1_payload i) 0) 2) as [G|G].
        -- split; [intros _; right; repeat split; auto; lia|intros _; apply fine_idx; lia].
        -- split; [intros G'; elim (err_fine _ G')|intros [[G' _]|(_ & _ & G')]; contradiction].
    + split; [intros G; elim (err_fine _ G)|intros [[G _]|[G _]]; contradiction].
Qed.
Lemma area_answers loc i : (exists v, acc_area loc i = Ok v) <-> i1_type i = 152 /\ (8 <= len (i1_payload i))%nat /\ nth 0 (i1_payload i) 0 = loc.
Proof.
  rewrite <- fine_Ok. unfold acc_area, typed1. destruct (N.eqb_spec (i1_type i) 152) as [F|F]; [|split; [intros G; elim (err_fine _ G)|intros [G _]; contradiction]].
  unfold at_least at 1. destruct (_ <? _)%nat eqn:L; [split; [intros G; elim (err_fine _ G)|intros (_ & G & _); lia]|].
  rewrite (idx_ok _ 0 0) by lia. cbn [bind]. destruct (N.eqb_spec (nth 0 (i1_payload i) 0) loc) as [G|G].
  - rewrite at_least_fine by (intros; fine_tac). tauto.
  - split; [intros G'; elim (err_fine _ G')|intros (_ & _ & G'); contradiction].
Qed.
Lemma ip_answers i : (exists v, acc_ip1 i = Ok v) <->
  (4 <= len (i1_payload i))%nat /\ (i1_type i = 133 \/ (i1_type i = 128 /\ nth 0 (i1_payload i) 0 = 241)).
Proof.
  rewrite <- fine_Ok. unfold acc_ip1. destruct (_ <? _)%nat eqn:L; [split; [intros G; elim (err_fine _ G)|intros [G _]; lia]|].
  destruct (N.eqb_spec (i1_type i) 128) as [F|F].
  - unfold acc_pdp_org, acc8, typed1, at_least, octet_at. rewrite F. rewrite N.eqb_refl. replace (len (i1_payload i) <? 1)%nat with false by lia.
    rewrite (idx_ok _ 0 0) by lia. cbn [must bind]. destruct (N.eqb_spec (nth 0 (i1_payload i) 0) 241) as [G|G].
    + split; [intros _; split; [lia|right; auto]|intros _; apply fine_slice_from; lia].
    + split; [intros G'; elim (err_fine _ G')|intros (_ & [G'|[_ G']]); [discriminate G'|contradiction]].
  - destruct (N.eqb_spec (i1_type i) 133) as [G|G].
    + split; [intros _; split; [lia|left; exact G]|intros _; apply fine_ok].
    + split; [intros G'; elim (err_fine _ G')|intros (_ & [G'|[G' _]]); contradiction].
Qed.
Lemma key_answers lo hi k i : (16 < lo)%nat -> (hi = lo + k)%nat ->
  (exists v, typed1 136 (at_least lo (fun p => do n <- idx p 16; at_least (hi + N.to_nat n) (fun p => slice p (hi - 16 + N.to_nat n) (hi + N.to_nat n)) p)) i = Ok v) <->
  i1_type i = 136 /\ (lo <= len (i1_payload i))%nat /\ (hi + N.to_nat (nth 16 (i1_payload i) 0%N) <= len (i1_payload i))%nat.
Proof.
  intros Hlo Hhi. rewrite <- fine_Ok. unfold typed1. destruct (N.eqb_spec (i1_type i) 136) as [F|F]; [|split; [intros G; elim (err_fine _ G)|intros [G _]; contradiction]].
  unfold at_least at 1. destruct (_ <? _)%nat eqn:L; [split; [intros G; elim (err_fine _ G)|intros (_ & G & _); lia]|].
  rewrite (idx_ok _ 16 0) by lia. cbn [bind]. rewrite at_least_fine by (intros; fine_tac). split; [|tauto]. intros H. repeat split; auto. lia.
Qed.
Lemma ck_answers i : (exists v, acc_ck i = Ok v) <-> i1_type i = 136 /\ (33 + N.to_nat (nth 16 (i1_payload i) 0%N) <= len (i1_payload i))%nat.
Proof.
  transitivity (i1_type i = 136 /\ (18 <= len (i1_payload i))%nat /\ (33 + N.to_nat (nth 16 (i1_payload i) 0%N) <= len (i1_payload i))%nat); [|intuition lia].
  rewrite <- (key_answers 18 33 15) by lia. unfold acc_ck, typed1. destruct (_ =? _); [|tauto]. unfold at_least at 1 3. destruct (_ <? _)%nat; [tauto|].
  destruct (idx (i1_payload i) 16) as [n|e|]; cbn [bind]; [|tauto|tauto]. replace (17 + N.to_nat n + 16)%nat with (33 + N.to_nat n)%nat by lia. tauto.
Qed.
Lemma ik_answers i : (exists v, acc_ik i = Ok v) <-> i1_type i = 136 /\ (49 + N.to_nat (nth 16 (i1_payload i) 0%N) <= len (i1_payload i))%nat.
Proof.
  transitivity (i1_type i = 136 /\ (34 <= len (i1_payload i))%nat /\ (49 + N.to_nat (nth 16 (i1_payload i) 0%N) <= len (i1_payload i))%nat); [|intuition lia].
  rewrite <- (key_answers 34 49 15) by lia. unfold acc_ik, typed1. destruct (_ =? _); [|tauto]. unfold at_least at 1 3. destruct (_ <? _)%nat; [tauto|].
  destruct (idx (i1_payload i) 16) as [n|e|]; cbn [bind]; [|tauto|tauto]. replace (33 + N.to_nat n + 16)%nat with (49 + N.to_nat n)%nat by lia. tauto.
Qed.
Lemma xres_answers i : (exists v, acc_xres i = Ok v) <->
  i1_payload i = [] \/ (i1_type i = 136 /\ (17 <= len (i1_payload i))%nat /\ (17 + N.to_nat (nth 16 (i1_payload i) 0%N) <= len (i1_payload i))%nat).
Proof.
  rewrite <- fine_Ok. unfold acc_xres. destruct (Nat.eqb_spec (len (i1_payload i)) 0) as [P|P].
  { apply length_zero_iff_nil in P. split; [auto|intros _; apply fine_ok]. }
  assert (P' : i1_payload i <> []) by (intros E; apply P; rewrite E; reflexivity).

  unfold typed1. destruct (N.eqb_spec (i1_type i) 136) as [F|F].
  2: { split; [intros G; elim (err_fine _ G)|intros [G|[G _]]; contradiction]. }
  unfold at_least at 1. destruct (_ <? 17)%nat eqn:L; [split; [intros G; elim (err_fine _ G)|intros [G|(_ & G & _)]; [contradiction|lia]]|].
  rewrite (idx_ok _ 16 0) by lia. cbn [bind]. rewrite at_least_fine by (intros; fine_tac). split; [intros H; right; repeat split; auto; lia|].
  intros [G|(_ & _ & G)]; [contradiction|exact G].
Qed.
Lemma apn_answers_loop fuel : forall p off, (off <= len p)%nat -> (len p < fuel + off)%nat ->
  (fine (apn_loop1 fuel p off) <-> labels_fit fuel (skipn off p)).
Proof.
  induction fuel as [|k IH]; intros p off Ho Hf; [lia|]. cbn [apn_loop1 labels_fit].
  destruct (off <? len p)%nat eqn:L.
  - rewrite (idx_ok p off 0) by lia. cbn [bind]. cbv zeta.
    assert (S : skipn off p = nth off p 0 :: skipn (S off) p).
    { clear -L. apply Nat.ltb_lt in L. revert p L. induction off as [|o IHo]; intros [|x p] L; cbn in L; try lia; [reflexivity|]. cbn [skipn nth]. apply IHo. lia. }
    rewrite S. set (n := N.to_nat (nth off p 0%N)). rewrite skipn_length. destruct (len p <? off + n + 1)%nat eqn:L2.
    + split; [intros G; elim (err_fine _ G)|intros [G _]; lia].
    + rewrite slice_ok by lia. cbn [bind]. specialize (IH p (off + (n + 1))%nat ltac:(lia) ltac:(lia)).
      assert (S2 : skipn n (skipn (Datatypes.S off) p) = skipn (off + (n + 1)) p).
      { clear IH S L2 L Ho Hf. clearbody n. replace (off + (n + 1))%nat with (Datatypes.S off + n)%nat by lia. generalize (Datatypes.S off) as o. intros o. revert p. induction o as [|o IHo]; intros p; [reflexivity|].
        destruct p as [|x p]; [destruct n; reflexivity|]. cbn [skipn plus]. apply IHo. }
      rewrite S2, <- IH. split.
      * intros H. split; [lia|]. destruct (apn_loop1 k p _); [apply fine_ok|elim (err_fine _ H)|destruct H as [v H]; discriminate H].
      * intros [_ [v ->]]. cbn [bind]. apply fine_ok.
  - replace (skipn off p) with (@nil N); [split; [auto|intros _; apply fine_ok]|]. symmetry. apply skipn_all2. lia.
Qed.
Lemma apn_answers i : (exists v, acc_apn1 i = Ok v) <-> i1_type i = 131 /\ labels_fit (S (len (i1_payload i))) (i1_payload i).
Proof.
  rewrite <- fine_Ok. unfold acc_apn1, typed1. destruct (N.eqb_spec (i1_type i) 131) as [F|F]; [|split; [intros G; elim (err_fine _ G)|intros [G _]; contradiction]].
  rewrite <- (apn_answers_loop (S (len (i1_payload i))) (i1_payload i) 0) by lia. split.
  - intros H. split; [exact F|]. destruct (apn_loop1 _ _ _); [apply fine_ok|elim (err_fine _ H)|destruct H as [v H]; discriminate H].
  - intros [_ [v ->]]. cbn [bind]. apply fine_ok.
Qed.
Lemma autn_answers i : (exists v, acc_autn i = Ok v) <-> i1_type i = 136 /\ (51 <= len (i1_payload i))%nat /\
  (49 + N.to_nat (nth 16 (i1_payload i) 0%N) + N.to_nat (nth 50 (i1_payload i) 0%N) <= len (i1_payload i))%nat.
Proof.
  rewrite <- fine_Ok. unfold acc_autn, typed1. destruct (N.eqb_spec (i1_type i) 136) as [F|F]; [|split; [intros G; elim (err_fine _ G)|intros [G _]; contradiction]].
  unfold at_least at 1. destruct (_ <? 50)%nat eqn:L; [split; [intros G; elim (err_fine _ G)|intros (_ & G & _); lia]|].
  rewrite (idx_ok _ 16 0) by lia. cbn [bind]. cbv zeta. destruct (Nat.eq_dec (len (i1_payload i)) 50) as [E|E].
  - unfold idx. rewrite (proj2 (nth_error_None (i1_payload i) 50)) by lia. cbn [bind]. split; [intros [v G]; discriminate G|intros (_ & G & _); lia].
  - rewrite (idx_ok _ 50 0) by lia. cbn [bind]. rewrite at_least_fine by (intros; fine_tac). split; [intros H; repeat split; auto; lia|intros (_ & _ & H); exact H].
Qed.
Lemma pco_answers i v : acc_pco1 i = Ok v -> i1_type i = 132 /\ i1_payload i <> [].
Proof.
  unfold acc_pco1, typed1. destruct (N.eqb_spec (i1_type i) 132) as [F|F]; [|discriminate]. destruct (Nat.eqb_spec (len (i1_payload i)) 0) as [E|E]; [discriminate|].
  intros _. split; [exact F|]. intros G. apply E. rewrite G. reflexivity.
Qed.
