(** The accessors of gtpv2/ie that look further into the payload. *)
From Coq Require Import String ZArith Lia.
From Verif Require Import Base BaseLemmas Utils UtilsProofs V2IE V2Codec V2Codec2 V2Ind V2Pco V2Tft V2Uli V2Acc AccSpec TvAnswerProofs UliSpec V2UliProofs V2AnswerSpec V2AnswerProofs.
Open Scope N_scope.
Open Scope list_scope.

Lemma bit_masked x k : x < 256 -> k = 6 \/ k = 7 -> hasbit k x = hasbit k (N.land x 192).
Proof.
  intros H [-> | ->]; apply eqb_prop; [apply (octet_256 (fun x => Bool.eqb (hasbit 6 x) (hasbit 6 (N.land x 192))))|apply (octet_256 (fun x => Bool.eqb (hasbit 7 x) (hasbit 7 (N.land x 192))))];
    try exact H; vm_compute; reflexivity.
Qed.
Lemma by_type rows t p : served_by rows t p <-> served_by (filter (fun r => fst (fst r) =? t) rows) t p.
Proof.
  induction rows as [|[[t' cs] n] r IH]; [reflexivity|]. cbn [filter fst]. destruct (N.eqb_spec t' t) as [E|E]; cbn [served_by]; rewrite IH; [reflexivity|].
  split; [intros [(G & _)|G]; [congruence|exact G]|auto].
Qed.
Section Content.
Context (i : ie2) (Hb : bytes_ok (i2_payload i)).
Let O0 : nth 0 (i2_payload i) 0 < 256 := octet_at_ok (i2_payload i) 0 Hb.
Let O1 : nth 1 (i2_payload i) 0 < 256 := octet_at_ok (i2_payload i) 1 Hb.
Ltac start := cbn [served_by any only fold_right fst snd]; rewrite ?(octet_all _ O0), ?(octet_all _ O1).
Lemma has_bit_nth k : i2_type i = 87 -> (1 <= len (i2_payload i))%nat -> has_ip_bit k i = hasbit k (nth 0 (i2_payload i) 0).
Proof. intros E L. unfold has_ip_bit. rewrite E, N.eqb_refl. destruct (i2_payload i); [cbn in L; lia|reflexivity]. Qed.
Lemma paa_ip_answers p : fine (do a <- paa_parse p; if (paa_type a =? 1) || (paa_type a =? 3) then Ok (paa_v4 a) else if paa_type a =? 2 then Ok (paa_v6 a) else Err EIEValueNotFound) <->
  (N.land (nth 0 p 0) 7 = 1 /\ (5 <= len p)%nat) \/ (N.land (nth 0 p 0) 7 = 2 /\ (18 <= len p)%nat) \/ (N.land (nth 0 p 0) 7 = 3 /\ (22 <= len p)%nat).
Proof.
  unfold paa_parse. cbv zeta. destruct (len p <? 1)%nat eqn:L; [cbn [bind]; end_tac|]. rewrite (idx_ok p 0 0) by lia. cbn [bind].
  destruct (N.eqb_spec (N.land (nth 0 p 0) 7) 1) as [E|E].
  { destruct (len p <? 5)%nat eqn:M; [cbn [bind]; end_tac|]. destruct (fine_slice p 1 5) as [a Ha]; [lia|lia|]. rewrite Ha. cbn [bind paa_type]. rewrite E. apply fine_iff; [lia|apply fine_ok]. }
  destruct (N.eqb_spec (N.land (nth 0 p 0) 7) 2) as [F|F].
  { destruct (len p <? 18)%nat eqn:M; [cbn [bind]; end_tac|]. rewrite (idx_ok p 1 0) by lia. cbn [bind].
    destruct (fine_slice p 2 18) as [a Ha]; [lia|lia|]. rewrite Ha. cbn [bind paa_type]. rewrite F. apply fine_iff; [lia|apply fine_ok]. }
  destruct (N.eqb_spec (N.land (nth 0 p 0) 7) 3) as [K|K].
  { destruct (len p <? 22)%nat eqn:M; [cbn [bind]; end_tac|]. rewrite (idx_ok p 1 0) by lia. cbn [bind].
    destruct (fine_slice p 2 18) as [a Ha]; [lia|lia|]. rewrite Ha. cbn [bind].
    destruct (fine_slice p 18 22) as [c Hc]; [lia|lia|]. rewrite Hc. cbn [bind paa_type]. rewrite K. apply fine_iff; [lia|apply fine_ok]. }
  cbn [bind paa_type]. apply N.eqb_neq in E, F, K. rewrite E, F, K. apply N.eqb_neq in E, F, K. cbn [orb]. end_tac.
Qed.
Ltac rows := match goal with |- context [served_by (filter ?f ?l)] => let r := eval vm_compute in (filter f l) in change (filter f l) with r end; start.
Lemma ip2_answers : fine (acc_ip i) <-> served_by ip_rows (i2_type i) (i2_payload i).
Proof.
  unfold acc_ip. cbv zeta. destruct (len (i2_payload i) <? 4)%nat eqn:L.
  { apply err_fine_iff. unfold ip_rows. cbn [served_by any only fold_right fst snd]. intros G. repeat (destruct G as [(_ & _ & G)|G]; [lia|]). exact G. }
  rewrite by_type.
  destruct (N.eqb_spec (i2_type i) 74) as [T|T]; [rewrite T; rows; end_tac|].
  destruct (N.eqb_spec (i2_type i) 79) as [U|U].
  { rewrite U. rows. destruct (len (i2_payload i) <? 5)%nat eqn:M; [end_tac|]. rewrite paa_ip_answers. lia. }
  destruct (N.eqb_spec (i2_type i) 90) as [V|V]; [rewrite V; rows; split_tac; end_tac|].
  destruct (N.eqb_spec (i2_type i) 91) as [W|W]; [rewrite W; rows; split_tac; end_tac|].
  destruct (N.eqb_spec (i2_type i) 87) as [X|X].
  2: { apply err_fine_iff. rewrite <- by_type. unfold ip_rows. cbn [served_by any only fold_right fst snd]. intros G. repeat (destruct G as [(G & _)|G]; [congruence|]). exact G. }
  unfold has_ipv4, has_ipv6. rewrite !has_bit_nth by (assumption || lia). rewrite (bit_masked _ 7) by auto. rewrite (bit_masked _ 6) by auto. rewrite X. rows.
  pose proof (fteid_parse_answers i Hb (i2_payload i) Hb) as P. pose proof (octet_addr _ O0) as Q.
  destruct (fteid_parse (i2_payload i)) as [f|e|]; cbn [bind].
  - destruct P as [P _]. specialize (P (fine_ok _)). destruct (hasbit 7 _), (hasbit 6 _).
    + apply fine_iff; [lia|apply fine_ok].
    + apply fine_iff; [lia|apply fine_ok].
    + apply fine_iff; [lia|apply fine_ok].
    + apply err_fine_iff. lia.
  - apply err_fine_iff. intros G. assert (G' : ~ fine (Err (A := fteid) e)) by apply err_fine. rewrite P in G'. apply G'. destruct (hasbit 7 _), (hasbit 6 _); lia.
  - apply not_fine_iff; [intros [v G]; discriminate G|]. intros G. assert (G' : ~ fine (@Panic fteid)) by (intros [v H]; discriminate H). rewrite P in G'. apply G'. destruct (hasbit 7 _), (hasbit 6 _); lia.
Qed.
Lemma found_fine ip : fine (found ip) <-> ip <> None.
Proof. destruct ip as [v|]; cbn [found]; [apply fine_iff; [discriminate|apply fine_ok]|apply err_fine_iff; intros G; elim G; reflexivity]. Qed.
Lemma to16_some b : to16 (Some b) <> None <-> len b = 4%nat \/ len b = 16%nat.
Proof.
  unfold to16. destruct (len b =? 4)%nat eqn:L; [|destruct (len b =? 16)%nat eqn:M].
  - split; [intros _; left; lia|discriminate].
  - split; [intros _; right; lia|discriminate].
  - split; [intros G; elim G; reflexivity|lia].
Qed.
Lemma paa_ip6_answers p : fine (do a <- paa_parse p; found (to16 (paa_v6 a))) <->
  (N.land (nth 0 p 0) 7 = 2 /\ (18 <= len p)%nat) \/ (N.land (nth 0 p 0) 7 = 3 /\ (22 <= len p)%nat).
Proof.
  unfold paa_parse. cbv zeta. destruct (len p <? 1)%nat eqn:L; [cbn [bind]; end_tac|]. rewrite (idx_ok p 0 0) by lia. cbn [bind].
  destruct (N.eqb_spec (N.land (nth 0 p 0) 7) 1) as [E|E].
  { destruct (len p <? 5)%nat eqn:M; [cbn [bind]; end_tac|]. destruct (fine_slice p 1 5) as [a Ha]; [lia|lia|]. rewrite Ha. cbn [bind paa_v6 to16 found]. end_tac. }
  destruct (N.eqb_spec (N.land (nth 0 p 0) 7) 2) as [F|F].
  { destruct (len p <? 18)%nat eqn:M; [cbn [bind]; end_tac|]. rewrite (idx_ok p 1 0) by lia. cbn [bind].
    destruct (fine_slice p 2 18) as [a Ha]; [lia|lia|]. rewrite Ha. cbn [bind paa_v6]. apply slice_len in Ha. rewrite found_fine, to16_some. lia. }
  destruct (N.eqb_spec (N.land (nth 0 p 0) 7) 3) as [K|K].
  { destruct (len p <? 22)%nat eqn:M; [cbn [bind]; end_tac|]. rewrite (idx_ok p 1 0) by lia. cbn [bind].
    destruct (fine_slice p 2 18) as [a Ha]; [lia|lia|]. rewrite Ha. cbn [bind]. apply slice_len in Ha.
    destruct (fine_slice p 18 22) as [c Hc]; [lia|lia|]. rewrite Hc. cbn [bind paa_v6]. rewrite found_fine, to16_some. lia. }
  cbn [bind paa_v6 to16 found]. end_tac.
Qed.
Lemma fteid_v6 p f : fteid_parse p = Ok f -> ft_v6 f <> None -> exists a, ft_v6 f = Some a /\ len a = 16%nat.
Proof.
  unfold fteid_parse. cbv zeta. destruct (_ <? 5)%nat eqn:L; [discriminate|]. rewrite (idx_ok p 0 0) by lia. cbn [bind].
  destruct (fine_slice p 1 5) as [s Hs]; [lia|lia|]. rewrite Hs. cbn [bind]. apply slice_len in Hs. destruct (fine_be32 s) as [v Hv]; [lia|]. rewrite Hv. cbn [bind].
  match goal with |- (do r <- ?x; _) = _ -> _ => destruct x as [[v4 off]|e|]; cbn [bind]; [|discriminate|discriminate] end.
  destruct (hasbit 6 _); [|cbn [bind]; intros E G; injection E as <-; elim G; reflexivity].
  destruct (_ <? off + 16)%nat eqn:M; [discriminate|]. destruct (fine_slice p off (off + 16)) as [a Ha]; [lia|lia|]. rewrite Ha. cbn [bind]. apply slice_len in Ha.
  intros E _. injection E as <-. cbn [ft_v6]. exists a. unfold to16. replace (len a =? 4)%nat with false by lia. replace (len a =? 16)%nat with true by lia. split; [reflexivity|lia].
Qed.
Lemma fteid_v6_some p f : fteid_parse p = Ok f -> hasbit 6 (N.land (nth 0 p 0) 192) = true -> ft_v6 f <> None.
Proof.
  unfold fteid_parse. cbv zeta. destruct (_ <? 5)%nat eqn:L; [discriminate|]. rewrite (idx_ok p 0 0) by lia. cbn [bind].
  destruct (fine_slice p 1 5) as [s Hs]; [lia|lia|]. rewrite Hs. cbn [bind]. apply slice_len in Hs. destruct (fine_be32 s) as [v Hv]; [lia|]. rewrite Hv. cbn [bind].
  match goal with |- (do r <- ?x; _) = _ -> _ => destruct x as [[v4 off]|e|]; cbn [bind]; [|discriminate|discriminate] end.
  intros E H. rewrite H in E. destruct (_ <? off + 16)%nat eqn:M; [discriminate E|]. destruct (fine_slice p off (off + 16)) as [a Ha]; [lia|lia|]. rewrite Ha in E. cbn [bind] in E. apply slice_len in Ha.
  injection E as <-. cbn [ft_v6]. apply to16_some. lia.
Qed.
Lemma ip6_answers : fine (acc_ipv6 i) <-> (i2_type i = 74 /\ (len (i2_payload i) = 4%nat \/ len (i2_payload i) = 16%nat)) \/ served_by ip6_rows (i2_type i) (i2_payload i).
Proof.
  rewrite by_type. unfold acc_ipv6, acc_ip. cbv zeta. destruct (len (i2_payload i) <? 4)%nat eqn:L.
  { apply err_fine_iff. rewrite <- by_type. unfold ip6_rows. cbn [served_by any only fold_right fst snd]. intros [G|G]; [lia|]. repeat (destruct G as [(_ & _ & G)|G]; [lia|]). exact G. }
  destruct (N.eqb_spec (i2_type i) 74) as [T|T].
  { rewrite T. cbn [orb bind]. rows. rewrite found_fine, to16_some. lia. }
  destruct (N.eqb_spec (i2_type i) 79) as [U|U].
  { rewrite U. change (79 =? 90) with false. change (79 =? 91) with false. cbn [orb]. rows. rewrite paa_ip6_answers. lia. }
  destruct (N.eqb_spec (i2_type i) 90) as [V|V].
  { rewrite V. cbn [orb]. rows. rewrite (idx_ok _ 0 0) by lia. cbn [bind]. split_tac; cbn [bind]; try end_tac;
    (match goal with |- context [slice ?p ?a ?b] => destruct (fine_slice p a b) as [s Hs]; [lia|lia|]; rewrite Hs; cbn [bind]; apply slice_len in Hs end); rewrite found_fine, to16_some; lia. }
  destruct (N.eqb_spec (i2_type i) 91) as [W|W].
  { rewrite W. cbn [orb]. rows. rewrite (idx_ok _ 1 0) by lia. cbn [bind]. split_tac; cbn [bind]; try end_tac;
    (match goal with |- context [slice ?p ?a ?b] => destruct (fine_slice p a b) as [s Hs]; [lia|lia|]; rewrite Hs; cbn [bind]; apply slice_len in Hs end); rewrite found_fine, to16_some; lia. }
  cbn [orb]. destruct (N.eqb_spec (i2_type i) 87) as [X|X].
  2: { apply err_fine_iff. rewrite <- by_type. unfold ip6_rows. cbn [served_by any only fold_right fst snd]. intros [[G _]|G]; [contradiction|]. repeat (destruct G as [(G & _)|G]; [congruence|]). exact G. }
  unfold has_ipv6. rewrite !has_bit_nth by (assumption || lia). rewrite (bit_masked _ 6) by auto. rewrite X. rows.
  pose proof (fteid_parse_answers i Hb (i2_payload i) Hb) as P. pose proof (octet_addr _ O0) as Q.
  destruct (fteid_parse (i2_payload i)) as [f|e|] eqn:Ef; cbn [bind].
  - destruct P as [P _]. specialize (P (fine_ok _)). destruct (hasbit 6 _) eqn:B6.
    + destruct (fteid_v6 _ _ Ef (fteid_v6_some _ _ Ef B6)) as (a & Ea & La). rewrite Ea, found_fine, to16_some. destruct (hasbit 7 _); lia.
    + apply err_fine_iff. destruct (hasbit 7 _); lia.
  - apply err_fine_iff. intros G. assert (G' : ~ fine (Err (A := fteid) e)) by apply err_fine. rewrite P in G'. apply G'. destruct (hasbit 7 _), (hasbit 6 _); lia.
  - apply not_fine_iff; [intros [v G]; discriminate G|]. intros G. assert (G' : ~ fine (@Panic fteid)) by (intros [v H]; discriminate H). rewrite P in G'. apply G'. destruct (hasbit 7 _), (hasbit 6 _); lia.
Qed.
Lemma s1u_answers : fine (acc_s1udf i) <-> i2_type i = 91 /\ (6 + N.to_nat (nth 1 (i2_payload i) 0%N) <= len (i2_payload i))%nat.
Proof.
  unfold acc_s1udf, s1udf_parse, typed. cbv zeta. destruct (N.eqb_spec (i2_type i) 91) as [E|E]; [|end_tac]. destruct (len _ <? 2)%nat eqn:L; [end_tac|].
  rewrite (idx_ok _ 0 0), (idx_ok _ 1 0) by lia. cbn [bind]. destruct (_ <? 2 + _)%nat eqn:M; [end_tac|].
  destruct (fine_slice (i2_payload i) 2 (2 + N.to_nat (nth 1 (i2_payload i) 0%N))) as [a Ha]; [lia|lia|]. rewrite Ha. cbn [bind].
  destruct (_ <? 2 + _ + 4)%nat eqn:K; [end_tac|]. end_tac.
Qed.
Lemma s103_answers : fine (acc_s103 i) <-> i2_type i = 90 /\ (let n := N.to_nat (nth 0 (i2_payload i) 0%N) in
  6 + n <= len (i2_payload i) /\ 6 + n + N.to_nat (nth (5 + n) (i2_payload i) 0%N) <= len (i2_payload i))%nat.
Proof.
  unfold acc_s103, s103_parse, typed. cbv zeta. destruct (N.eqb_spec (i2_type i) 90) as [E|E]; [|end_tac]. destruct (len _ <? 2)%nat eqn:L; [end_tac|].
  rewrite (idx_ok _ 0 0) by lia. cbn [bind]. set (n := N.to_nat (nth 0 (i2_payload i) 0)). destruct (_ <? 1 + n)%nat eqn:M; [end_tac|].
  destruct (fine_slice (i2_payload i) 1 (1 + n)) as [a Ha]; [lia|lia|]. rewrite Ha. cbn [bind]. destruct (_ <? 1 + n + 4)%nat eqn:K; [end_tac|].
  destruct (fine_slice (i2_payload i) (1 + n) (1 + n + 4)) as [s Hs]; [lia|lia|]. rewrite Hs. cbn [bind]. apply slice_len in Hs.
  destruct (fine_be32 s) as [v Hv]; [lia|]. rewrite Hv. cbn [bind]. destruct (_ <=? 1 + n + 4)%nat eqn:J; [end_tac|].
  rewrite (idx_ok _ (1 + n + 4) 0) by lia. cbn [bind]. replace (1 + n + 4)%nat with (5 + n)%nat by lia. destruct (_ <? 5 + n + 1 + _)%nat eqn:R; [end_tac|].
  end_tac.
Qed.
Lemma pdn_answers (g : N -> bool) : g (i2_type i) = false -> (fine (acc_pdn_type g i) <-> served_by [any 99 1; any 79 1] (i2_type i) (i2_payload i)).
Proof. intros Hg. start. unfold acc_pdn_type, value_u8. rewrite Hg. split_tac; end_tac. Qed.
End Content.
(** ** User location *)
Lemma fine_loc2 b off : (off + 7 <= len b)%nat -> fine (get_loc2 b off).
Proof. intros H. unfold get_loc2. fine2_tac. Qed.
Lemma fine_loc16 b off : (off + 5 <= len b)%nat -> fine (get_loc16 b off).
Proof. intros H. unfold get_loc16. fine2_tac. Qed.
Lemma fine_loc32 b off : (off + 7 <= len b)%nat -> fine (get_loc32 b off).
Proof. intros H. unfold get_loc32. fine2_tac. Qed.
Lemma fine_loc24 b off : (off + 6 <= len b)%nat -> fine (get_loc24 b off).
Proof. intros H. unfold get_loc24. fine2_tac. Qed.
Lemma fine_step {A B} fl k n (r : bytes -> nat -> res A) b off (f : option A * nat -> res B) (m : nat) :
  (forall o, (o + n <= len b)%nat -> fine (r b o)) -> (off <= len b)%nat ->
  (forall v o, (o <= len b)%nat -> (fine (f (v, o)) <-> (o + m <= len b)%nat)) ->
  (fine (do x <- dec_step fl k n r b off; f x) <-> (off + ((if hasbit k fl then n else 0) + m) <= len b)%nat).
Proof.
  intros Hr Ho Hf. unfold dec_step. destruct (hasbit k fl).
  - destruct (_ <? _)%nat eqn:L; [cbn [bind]; apply err_fine_iff; lia|]. destruct (Hr off) as [v Hv]; [lia|]. rewrite Hv. cbn [bind]. rewrite Hf by lia. lia.
  - cbn [bind]. rewrite Hf by lia. lia.
Qed.
Lemma octet_bits x k : x < 256 -> k < 8 -> hasbit k x = N.testbit x k.
Proof.
  intros H K. apply eqb_prop.
  assert (F : forallb (fun k => Bool.eqb (hasbit k x) (N.testbit x k)) (map N.of_nat (seq 0 8)) = true).
  { apply (octet_256 (fun x => forallb (fun k => Bool.eqb (hasbit k x) (N.testbit x k)) (map N.of_nat (seq 0 8)))); [exact H|vm_compute; reflexivity]. }
  rewrite forallb_forall in F. apply (F k). apply in_map_iff. exists (N.to_nat k). split; [lia|apply in_seq; lia].
Qed.
Lemma uli_answers p : bytes_ok p -> (fine (uli_parse p) <-> p <> [] /\ (1 + location_octets (nth 0 p 0%N) <= len p)%nat).
Proof.
  intros Hb. unfold uli_parse. destruct (len p <? 1)%nat eqn:L.
  { apply err_fine_iff. intros [H _]. apply H. apply length_zero_iff_nil. lia. }
  rewrite (idx_ok p 0 0) by lia. cbn [bind]. assert (N0 : p <> []) by (intros ->; discriminate L).
  transitivity (1 + location_octets (nth 0 p 0%N) <= len p)%nat; [|tauto]. unfold location_octets. cbv zeta.
  rewrite <- !octet_bits by (lia || apply octet_at_ok, Hb). set (fl := nth 0 p 0).
  replace ((if hasbit 0 fl then 7 else 0) + (if hasbit 1 fl then 7 else 0) + (if hasbit 2 fl then 7 else 0) + (if hasbit 3 fl then 5 else 0) +
     (if hasbit 4 fl then 7 else 0) + (if hasbit 5 fl then 5 else 0) + (if hasbit 6 fl then 6 else 0) + (if hasbit 7 fl then 6 else 0))%nat
    with ((if hasbit 0 fl then 7 else 0) + ((if hasbit 1 fl then 7 else 0) + ((if hasbit 2 fl then 7 else 0) + ((if hasbit 3 fl then 5 else 0) +
     ((if hasbit 4 fl then 7 else 0) + ((if hasbit 5 fl then 5 else 0) + ((if hasbit 6 fl then 6 else 0) + ((if hasbit 7 fl then 6 else 0) + 0))))))))%nat by lia.
  apply fine_step; [intros; apply fine_loc2; lia|lia|intros v1 o1 H1; cbn [snd]].
  apply fine_step; [intros; apply fine_loc2; lia|lia|intros v2 o2 H2; cbn [snd]].
  apply fine_step; [intros; apply fine_loc2; lia|lia|intros v3 o3 H3; cbn [snd]].
  apply fine_step; [intros; apply fine_loc16; lia|lia|intros v4 o4 H4; cbn [snd]].
  apply fine_step; [intros; apply fine_loc32; lia|lia|intros v5 o5 H5; cbn [snd]].
  apply fine_step; [intros; apply fine_loc16; lia|lia|intros v6 o6 H6; cbn [snd]].
  apply fine_step; [intros; apply fine_loc24; lia|lia|intros v7 o7 H7; cbn [snd]].
  apply fine_step; [intros; apply fine_loc24; lia|lia|intros v8 o8 H8; cbn [snd]].
  apply fine_iff; [lia|apply fine_ok].
Qed.
(** ** Options *)
Lemma container_fine p : (3 <= len p)%nat -> exists c, container_parse p = Ok c /\
  skipn (container_mlen c) p = (let n := N.to_nat (nth 2 p 0) in if (n <=? len (skipn 3 p))%nat then skipn n (skipn 3 p) else skipn 3 p) /\ (container_mlen c <= len p)%nat.
Proof.
  intros H. unfold container_parse. cbv zeta. rewrite (proj2 (Nat.ltb_ge _ _) H).
  destruct (fine_slice p 0 2) as [s Hs]; [lia|lia|]. rewrite Hs. cbn [bind]. apply slice_len in Hs. destruct (fine_be16 s) as [v Hv]; [lia|]. rewrite Hv. cbn [bind].
  rewrite (idx_ok p 2 0) by lia. cbn [bind]. set (n := nth 2 p 0). rewrite skipn_length.
  destruct (N.eqb_spec n 0) as [E|E]; cbn [negb andb].
  { eexists. split; [reflexivity|]. unfold container_mlen. cbn [ct_contents List.length]. rewrite E. cbn. auto. }
  destruct (3 + N.to_nat n <=? len p)%nat eqn:F.
  - destruct (fine_slice p 3 (3 + N.to_nat n)) as [c Hc]; [lia|lia|]. rewrite Hc. cbn [bind]. eexists. split; [reflexivity|]. unfold container_mlen. cbn [ct_contents].
    apply slice_len in Hc. rewrite Hc. replace (3 + N.to_nat n - 3)%nat with (N.to_nat n) by lia. replace (N.to_nat n <=? len p - 3)%nat with true by lia.
    split; [|lia]. clear. generalize (N.to_nat n). intros k. destruct p as [|a [|b [|c p]]]; cbn [skipn Nat.add]; try reflexivity; destruct k; reflexivity.
  - eexists. split; [reflexivity|]. unfold container_mlen. cbn [ct_contents List.length]. replace (N.to_nat n <=? len p - 3)%nat with false by lia. split; [reflexivity|lia].
Qed.
Lemma options_loop fuel : forall p off, (off <= len p)%nat -> (len p < fuel + off)%nat ->
  (fine (containers_parse fuel p off) <-> options_fit fuel (skipn off p)).
Proof.
  induction fuel as [|fuel IH]; intros p off Ho Hf; [lia|]. cbn [containers_parse]. destruct (len p <=? off)%nat eqn:L.
  { rewrite skipn_all2 by lia. cbn. apply fine_iff; [exact I|apply fine_ok]. }
  rewrite slice_from_ok by lia. cbn [bind]. pose proof (skipn_length off p) as Hl. remember (skipn off p) as q eqn:Eq.
  destruct (Nat.lt_ge_cases (len q) 3) as [B|B].
  - unfold container_parse. rewrite (proj2 (Nat.ltb_lt _ _) B). cbn [bind]. apply err_fine_iff. destruct q as [|a [|b [|c q]]]; cbn in B, Hl; try lia; cbn; auto.
  - destruct (container_fine q B) as (c & Hc & Hk & Hm). rewrite Hc. cbn [bind].
    assert (W : skipn (off + container_mlen c) p = skipn (container_mlen c) q).
    { rewrite Eq. clear. generalize (container_mlen c). intros k. revert p. induction off as [|off IHo]; intros p; [reflexivity|]. destruct p; [cbn [Nat.add skipn]; rewrite skipn_nil; reflexivity|]. cbn [Nat.add skipn]. apply IHo. }
    assert (V : options_fit (S fuel) q <-> options_fit fuel (skipn (off + container_mlen c) p)).
    { rewrite W, Hk. cbv zeta. destruct q as [|a [|b [|d q]]]; cbn in B; try lia. cbn [options_fit nth skipn]. reflexivity. }
    assert (M : (3 <= container_mlen c)%nat) by (unfold container_mlen; lia).
    rewrite V, <- IH by lia. destruct (containers_parse fuel p (off + container_mlen c)) as [r|e|]; cbn [bind].
    + split; intros _; apply fine_ok.
    + split; intros G; elim (err_fine _ G).
    + split; intros [v G]; discriminate G.
Qed.
Lemma options_answers p : fine (pco_parse p) <-> p <> [] /\ options_fit (S (len p)) (skipn 1 p).
Proof.
  unfold pco_parse. destruct (len p <? 1)%nat eqn:L.
  { apply err_fine_iff. intros [H _]. apply H. apply length_zero_iff_nil. lia. }
  rewrite (idx_ok p 0 0) by lia. cbn [bind]. rewrite <- options_loop by lia.
  destruct (containers_parse _ p 1) as [r|e|]; cbn [bind]; split.
  - intros _. split; [intros ->; discriminate L|apply fine_ok].
  - intros _. apply fine_ok.
  - intros G. elim (err_fine _ G).
  - intros [_ G]. elim (err_fine _ G).
  - intros [v G]. discriminate G.
  - intros [_ [v G]]. discriminate G.
Qed.
(** ** Bearer Contexts *)
Section G.
Context (g : N -> bool).
Lemma context_via {A} t (f : ie2 -> res A) i : i2_type i = 93 -> t <> 93 ->
  (fine (via_context g t f i) <-> i2_payload i <> [] /\ exists cs c, multi2 g (i2_payload i) = Ok cs /\ find (fun c => i2_type c =? t) cs = Some c /\ fine (f c)).
Proof.
  intros E Ht. unfold via_context, bearer_context. rewrite E. replace (93 =? t) with false by (symmetry; apply N.eqb_neq; congruence). rewrite !N.eqb_refl. cbn [negb].
  destruct (len (i2_payload i) <? 1)%nat eqn:L.
  { cbn [bind]. apply err_fine_iff. intros [H _]. apply H. apply length_zero_iff_nil. lia. }
  assert (P : i2_payload i <> []) by (intros Q; rewrite Q in L; discriminate L).
  destruct (multi2 g (i2_payload i)) as [cs|e|]; cbn [bind].
  - destruct (find (fun c => i2_type c =? t) cs) as [c|] eqn:F.
    + split; [intros G; split; [exact P|exists cs, c; auto]|]. intros (_ & cs' & c' & H1 & H2 & H3). injection H1 as <-. rewrite F in H2. injection H2 as <-. exact H3.
    + apply err_fine_iff. intros (_ & cs' & c' & H1 & H2 & H3). injection H1 as <-. rewrite F in H2. discriminate H2.
  - apply err_fine_iff. intros (_ & cs' & c' & H1 & _). discriminate H1.
  - apply not_fine_iff; [intros [v G]; discriminate G|]. intros (_ & cs' & c' & H1 & _). discriminate H1.
Qed.
Lemma tft_via i : i2_type i = 93 -> acc_tft g i = via_context g 84 (acc_tft g) i.
Proof.
  intros E. unfold acc_tft at 1, via_context. rewrite E. change (93 =? 84) with false. change (93 =? 85) with false. rewrite !N.eqb_refl. cbn [orb]. destruct (bearer_context g i) as [cs|e|]; cbn [bind]; [|reflexivity|reflexivity].
  destruct (find (fun c => i2_type c =? 84) cs) as [c|] eqn:F; [|reflexivity]. apply find_some in F. destruct F as [_ F]. cbv beta in F. unfold acc_tft. rewrite F. reflexivity.
Qed.
Lemma via_self {A} t (f : ie2 -> res A) c : i2_type c = t -> via_context g t f c = f c.
Proof. intros <-. unfold via_context. rewrite N.eqb_refl. reflexivity. Qed.
Definition context_holds (i : ie2) (a : string * (ie2 -> res unit)) : Prop :=
  forall t, In (fst a, t) in_context -> i2_type i = 93 ->
  (snd a i = Ok tt <-> i2_payload i <> [] /\ exists cs c, multi2 g (i2_payload i) = Ok cs /\ find (fun c => i2_type c =? t) cs = Some c /\ snd a c = Ok tt).
Lemma context_row {A} n (f : ie2 -> res A) t i : (forall s, In (n, s) in_context -> s = t) -> t <> 93 ->
  (forall c, i2_type c = t \/ i2_type c = 93 -> f c = via_context g t f c) -> context_holds i (n, ends f).
Proof.
  intros Hu Ht Hf t' Hin E. cbn [fst snd] in *. apply Hu in Hin. subst t'. rewrite ends_fine, (Hf i) by auto. rewrite context_via by assumption.
  split; intros (H & cs & c & H1 & H2 & H3); (split; [exact H|]); exists cs, c; repeat split; auto; apply ends_fine; exact H3.
Qed.
End G.
(** ** The network code of any IE that has one *)
Lemma flags_zero x : x < 256 -> (forall k, k < 8 -> N.land x (2 ^ k) = 0) -> x = 0.
Proof.
  intros H K. assert (E : (negb (forallb (fun k => N.land x (2 ^ k) =? 0) (map N.of_nat (seq 0 8))) || (x =? 0))%bool = true).
  { apply (octet_256 (fun x => negb (forallb (fun k => N.land x (2 ^ k) =? 0) (map N.of_nat (seq 0 8))) || (x =? 0))%bool); [exact H|vm_compute; reflexivity]. }
  apply orb_true_iff in E. destruct E as [E|E]; [|apply N.eqb_eq, E]. apply negb_true_iff in E. rewrite <- not_true_iff_false in E. elim E.
  apply forallb_forall. intros k Hk. apply in_map_iff in Hk. destruct Hk as (n & <- & Hn). apply in_seq in Hn. apply N.eqb_eq, K. lia.
Qed.
Lemma location_octets_pos x : x < 256 -> x <> 0 -> (5 <= location_octets x)%nat.
Proof.
  intros H N0. assert (E : ((x =? 0) || (5 <=? location_octets x)%nat)%bool = true).
  { apply (octet_256 (fun x => (x =? 0) || (5 <=? location_octets x)%nat)%bool); [exact H|vm_compute; reflexivity]. }
  apply orb_true_iff in E. destruct E as [E|E]; [apply N.eqb_eq in E; contradiction|lia].
Qed.
Lemma uli_parse_flags p f : bytes_ok p -> uli_parse p = Ok f -> u_flags f = nth 0 p 0.
Proof.
  intros Hb H. destruct p as [|fl r]; [discriminate H|]. inversion Hb; subst. pose proof (parse_any fl r) as P.
  destruct (len (fl :: r) <? uli_size fl)%nat; [rewrite P in H by assumption; discriminate H|].
  destruct P as (f' & E & F & _); [assumption|]. rewrite E in H. injection H as <-. exact F.
Qed.
Lemma plmn_answers i : bytes_ok (i2_payload i) -> (fine (acc_mcc_mnc_all i) <-> served_by plmn_rows (i2_type i) (i2_payload i) \/
  (i2_type i = 86 /\ nth 0 (i2_payload i) 0 <> 0 /\ (1 + location_octets (nth 0 (i2_payload i) 0%N) <= len (i2_payload i))%nat)).
Proof.
  intros Hb. pose proof (octet_at_ok (i2_payload i) 0 Hb) as O0. destruct (N.eqb_spec (i2_type i) 86) as [T|T].
  - assert (N1 : ~ served_by plmn_rows (i2_type i) (i2_payload i)).
    { unfold plmn_rows. cbn [served_by any only fold_right fst snd]. intros G. repeat (destruct G as [(G & _)|G]; [rewrite T in G; discriminate G|]). exact G. }
    pose proof (uli_answers _ Hb) as U. pose proof (mcc_mnc_safe i Hb) as S. unfold acc_mcc_mnc_all in *.
    destruct (len (i2_payload i) <? 3)%nat eqn:L.
    { apply err_fine_iff. intros [G|(_ & G & M)]; [contradiction|]. pose proof (location_octets_pos _ O0 G). lia. }
    unfold acc_uli, typed in *. rewrite T, N.eqb_refl in *. destruct (uli_parse (i2_payload i)) as [f|e|] eqn:P; cbn [bind] in *.
    + pose proof (uli_parse_flags _ _ Hb P) as F. destruct U as [U _]. destruct (U (fine_ok _)) as [_ M].
      destruct (N.eq_dec (nth 0 (i2_payload i) 0) 0) as [Z|Z].
      * unfold uli_has. rewrite F, Z. cbn. apply err_fine_iff. intros [G|(_ & G & _)]; contradiction.
      * match type of S with safe ?r => assert (W : forall e, r <> Err e) end.
        { intros e. destruct (uli_has 0 f) eqn:h0; [destruct (u_cgi f); discriminate|]. destruct (uli_has 1 f) eqn:h1; [destruct (u_sai f); discriminate|].
          destruct (uli_has 2 f) eqn:h2; [destruct (u_rai f); discriminate|]. destruct (uli_has 3 f) eqn:h3; [destruct (u_tai f); discriminate|].
          destruct (uli_has 4 f) eqn:h4; [destruct (u_ecgi f); discriminate|]. destruct (uli_has 5 f) eqn:h5; [destruct (u_lai f); discriminate|].
          destruct (uli_has 6 f) eqn:h6; [destruct (u_menbi f); discriminate|]. destruct (uli_has 7 f) eqn:h7; [destruct (u_emenbi f); discriminate|].
          exfalso. apply Z, flags_zero; [assumption|]. intros k Hk. rewrite <- F. unfold uli_has in *.
          repeat match goal with h : negb _ = false |- _ => apply negb_false_iff, N.eqb_eq in h end.
          assert (Q : k = 0 \/ k = 1 \/ k = 2 \/ k = 3 \/ k = 4 \/ k = 5 \/ k = 6 \/ k = 7) by lia.
          repeat (destruct Q as [->|Q]; [assumption|]). subst. assumption. }
        match goal with |- fine ?r <-> _ => destruct r as [v|e|]; [|elim (W e eq_refl)|elim S; reflexivity] end. apply fine_iff; [right; auto|apply fine_ok].
    + apply err_fine_iff. intros [G|(_ & G & M)]; [contradiction|]. assert (G' : ~ fine (Err (A := uli) e)) by apply err_fine. apply G', U. split; [intros Q; rewrite Q in L; discriminate L|exact M].
    + elim S. reflexivity.
  - transitivity (served_by plmn_rows (i2_type i) (i2_payload i)); [|tauto]. unfold acc_mcc_mnc_all, acc_mcc_mnc, slice_to, plmn_rows. cbn [served_by any only fold_right fst snd].
    split_tac; try end_tac.
Qed.
(** ** OffendingIE: four octets are read, so the IE must be empty *)
Lemma offending_answers g i : bytes_ok (i2_payload i) -> (fine (acc_offending g i) <-> i2_type i = 2 /\ (6 <= len (i2_payload i))%nat /\
  nth 3 (i2_payload i) 0 = 0 /\ nth 4 (i2_payload i) 0 = 0).
Proof.
  intros Hb. unfold acc_offending, typed. destruct (N.eqb_spec (i2_type i) 2) as [T|T]; [|end_tac].
  destruct (len (i2_payload i) <? 6)%nat eqn:L; [end_tac|]. rewrite slice_ok by lia. cbn [bind].
  destruct (i2_payload i) as [|a [|b [|c [|d [|e [|h r]]]]]]; cbn in L; try lia. cbn [skipn firstn Nat.sub].
  cbn [nth]. unfold parse2. cbn [List.length Nat.add]. 
  cbn [parse2_f List.length]. change (4 <? 4)%nat with false. cbv iota. change (idx [c; d; e; h] 0) with (Ok c). change (slice [c; d; e; h] 1 3) with (Ok [d; e]). cbn [bind].
  change (be16 [d; e]) with (Ok (d * 256 + e)). cbn [bind]. change (Z.of_nat 4 - 4)%Z with 0%Z.
  destruct (0 <? Z.of_N (d * 256 + e))%Z eqn:M; [apply err_fine_iff; lia|].
  assert (E : d * 256 + e = 0) by lia. rewrite E. change (idx [c; d; e; h] 3) with (Ok h). cbn [bind]. change (N.to_nat 0) with 0%nat. change (slice [c; d; e; h] 4 (4 + 0)) with (Ok (A := bytes) []). cbn [bind].
  apply fine_iff; [repeat split; auto; cbn; lia|]. destruct (g c); [cbn [multi2_f bind]|]; apply fine_ok.
Qed.
