(** C71: what a datagram can make the parsers of IEs and messages build, and how much work it
    can make them do.  The model is Work.v, the counting functions are in WorkSpec.v. *)
From Coq Require Import String.
From Verif Require Import Base BaseLemmas Utils V2IE V2IESpec V2IEProofs V2Header V2HeaderProofs TvIE TvIESpec TvIEProofs
  V1Header V1HeaderSpec V1HeaderProofs V0Header V0HeaderProofs MsgModel MsgProofs V2Msg V1Msg V0Msg Work WorkSpec WorkProofs.
Open Scope list_scope.
Open Scope N_scope.

(** The counted parsers are the parsers: same result on every input. *)
Theorem C71_same_parse : forall g b,
  snd (parse_run g b) = parse2 g b /\ snd (multi_run g b) = multi2 g b.
Proof. intros g b. split; [apply (proj1 (erase g _))|apply (proj2 (erase g _))]. Qed.
Example C71_same_parse_nonvacuous :
  parse_run default_grouped (nest 3) = (Calls 3 3, parse2 default_grouped (nest 3)) /\
  exists i, parse2 default_grouped (nest 3) = Ok i.
Proof. split; [reflexivity|eexists; reflexivity]. Qed.

(** However the IEs are nested, all of them together are at most a quarter of the octets
    given, and so is the depth of nesting. *)
Theorem C71_v2_ies_bounded : forall g b ies, bytes_ok b -> multi2 g b = Ok ies ->
  (4 * list_sum (map ie_count ies) <= len b)%nat /\ forall i, In i ies -> (4 * ie_depth i <= len b)%nat.
Proof.
  intros g b ies Hb H. destruct (multi2_inv g b ies Hb H) as [Hw Eb].
  pose proof (counts_le g ies Hw) as HC. rewrite <- Eb in HC. split; [exact HC|].
  intros i Hi. pose proof (depth_count g i) as HD.
  enough (ie_count i <= list_sum (map ie_count ies))%nat by lia.
  clear -Hi. induction ies as [|x l IH]; [contradiction|]. cbn [map]. rewrite sum_cons.
  destruct Hi as [->|Hi]; [lia|]. specialize (IH Hi). lia.
Qed.
Theorem C71_v2_ie_bounded : forall g b i, bytes_ok b -> parse2 g b = Ok i ->
  (4 * ie_count i <= len b)%nat /\ (4 * ie_depth i <= len b)%nat.
Proof.
  intros g b i Hb H. destruct (parse2_inv g b i Hb H) as [Hw (q & Eb)].
  pose proof (count_le g i Hw). pose proof (depth_count g i). rewrite Eb, app_length, len_wire. lia.
Qed.
Example C71_bounded_tight : exists ies, multi2 default_grouped (nest 5) = Ok ies /\
  (4 * list_sum (map ie_count ies) = len (nest 5))%nat /\ map ie_depth ies = [5%nat].
Proof. eexists. repeat split; reflexivity. Qed.

(** The same for the fields of a message. *)
Theorem C71_v2_message_bounded : forall g b d m, bytes_ok b -> v2_parse g b = Ok (d, m) ->
  (4 * held ie_count m + 8 <= len b)%nat.
Proof.
  intros g b d m Hb H. unfold v2_parse in H. destruct (len b <? 2)%nat; [discriminate|].
  apply bind_ok_inv in H. destruct H as (t & _ & H). apply bind_ok_inv in H. destruct H as (m' & Hm & H).
  injection H as <- <-. apply (parse_w (io2 g) ho2 ie_count) in Hm. destruct Hm as (h & Hh & _ & HW).
  cbn in Hh. destruct (h2_parse_inv b h Hb Hh) as (_ & _ & _ & _ & _ & _ & _ & Hp & _ & _ & q & Eb).
  assert (HL : (8 + len (h2_payload h) <= len b)%nat).
  { apply (f_equal (@List.length N)) in Eb. rewrite app_length, h2_wire_len in Eb. unfold h2_mlen in Eb.
    destruct (h2_has_teid h) in Eb; lia. }
  destruct HW as [->|(ies & Hi & HW)]; [lia|].
  pose proof (proj1 (C71_v2_ies_bounded g _ ies Hp Hi)). lia.
Qed.
Example C71_v2_message_bounded_nonvacuous : exists d m, v2_parse default_grouped (nest_msg 5) = Ok (d, m).
Proof. do 2 eexists. vm_compute. reflexivity. Qed.

(** gtpv1 and gtpv0: no more IEs than octets, and no more extension headers than a quarter of
    them. *)
Theorem C71_v1_ies_bounded : forall b ies, bytes_ok b -> multi1 tv1 xl1 b = Ok ies -> (List.length ies <= len b)%nat.
Proof.
  intros b ies Hb H. destruct (multi1_inv tv1 xl1 tv1_lt xl1_ge b ies Hb H) as [_ ->].
  clear. induction ies as [|i l IH]; [cbn; lia|]. cbn [flat_map List.length]. rewrite app_length.
  pose proof (wire1_pos xl1 i). lia.
Qed.
Theorem C71_v0_ies_bounded : forall b ies, bytes_ok b -> multi1 tv0 xl0 b = Ok ies -> (List.length ies <= len b)%nat.
Proof.
  intros b ies Hb H. destruct (multi1_inv tv0 xl0 tv0_lt xl0_ge b ies Hb H) as [_ ->].
  clear. induction ies as [|i l IH]; [cbn; lia|]. cbn [flat_map List.length]. rewrite app_length.
  pose proof (wire1_pos xl0 i). lia.
Qed.

Example C71_v1_ies_tight : exists ies, multi1 tv1 xl1 [0; 0; 0; 0; 1; 7] = Ok ies /\ List.length ies = 5%nat.
Proof. eexists. split; reflexivity. Qed.
Lemma h1_fits b h : bytes_ok b -> h1_parse b = Ok h -> (h1_mlen h <= len b)%nat.
Proof.
  intros Hb H. destruct (h1_parse_inv b h Hb H) as (_ & _ & HL & _).
  assert (HM : (8 <= h1_mlen h)%nat) by (unfold h1_mlen; lia).
  enough (N.to_nat (h1_length h) + 8 <= len b)%nat by lia. clear HL HM.
  unfold h1_parse in H. cbv zeta in H. destruct (len b <? 8)%nat; [discriminate|].
  do 6 (apply bind_ok_inv in H; destruct H as (? & _ & H)).
  match type of H with (if (len b <? N.to_nat ?x + 8)%nat then _ else _) = _ =>
    destruct (len b <? N.to_nat x + 8)%nat eqn:E; [discriminate|] end.
  apply Nat.ltb_ge in E. apply bind_ok_inv in H. destruct H as ([[[? ?] ?] ?] & _ & H).
  apply bind_ok_inv in H. destruct H as ([? ?] & _ & H).
  match type of H with (if ?c then _ else _) = _ => destruct c; [discriminate|] end.
  apply bind_ok_inv in H. destruct H as (? & _ & H). injection H as <-. exact E.
Qed.
Lemma h1_room b h : bytes_ok b -> h1_parse b = Ok h ->
  (8 + 4 * List.length (h1_exts h) + len (h1_payload h) <= len b)%nat.
Proof.
  intros Hb H. pose proof (h1_fits b h Hb H) as HF. destruct (h1_parse_inv b h Hb H) as (_ & _ & _ & _ & HK & HP & _).
  unfold h1_mlen in HF. destruct (f1_bits (h1_flags h)) as (Be & _ & _).
  assert (HE : (4 * List.length (h1_exts h) <= if f1_e (h1_flags h) then list_sum (map eh_mlen (h1_exts h)) else 0)%nat).
  { rewrite <- HK at 1. unfold h1_known. cbn [h1_exts]. rewrite <- Be.
    destruct (f1_e (h1_flags h)); [|cbn; lia]. rewrite map_length. clear.
    induction (h1_exts h) as [|e l IH]; [cbn; lia|]. cbn [map List.length]. rewrite sum_cons.
    enough (4 <= eh_mlen e)%nat by lia. unfold eh_mlen, pad4. clear.
    set (n := (len (eh_content e) + 2)%nat). assert (2 <= n)%nat by (unfold n; lia). clearbody n.
    destruct n as [|[|[|[|n]]]]; cbn; lia. }
  lia.
Qed.
Theorem C71_v1_message_bounded : forall b d m, bytes_ok b -> v1_parse b = Ok (P1 d m) ->
  (held (fun _ => 1%nat) m + 4 * List.length (h1_exts (m_hdr m)) + 8 <= len b)%nat.
Proof.
  intros b d m Hb H. unfold v1_parse in H. destruct (len b <? 2)%nat; [discriminate|].
  apply bind_ok_inv in H. destruct H as (t & _ & H). destruct (struct1 t) as [d'|].
  2: { apply bind_ok_inv in H. destruct H as (? & _ & H). discriminate. }
  apply bind_ok_inv in H. destruct H as (m' & Hm & H).
  injection H as <- <-. apply (parse_w io1 ho1 (fun _ => 1%nat)) in Hm. destruct Hm as (h & Hh & -> & HW).
  cbn in Hh. pose proof (h1_room b h Hb Hh) as HR. destruct (h1_parse_inv b h Hb Hh) as (_ & Hp & _).
  destruct HW as [->|(ies & Hi & HW)]; [lia|].
  pose proof (C71_v1_ies_bounded _ ies Hp Hi) as HB.
  enough (list_sum (map (fun _ : ie1 => 1%nat) ies) = List.length ies) as EQ by (rewrite EQ in HW; cbn in *; lia).
  clear. induction ies as [|x l IH]; [reflexivity|]. cbn [map List.length]. rewrite sum_cons, IH. reflexivity.
Qed.
Theorem C71_v1_tpdu_bounded : forall b h, bytes_ok b -> v1_parse b = Ok (P1_tpdu h) ->
  (4 * List.length (h1_exts h) + len (h1_payload h) + 8 <= len b)%nat.
Proof.
  intros b h Hb H. unfold v1_parse in H. destruct (len b <? 2)%nat; [discriminate|].
  apply bind_ok_inv in H. destruct H as (t & _ & H). destruct (struct1 t) as [d'|].
  { apply bind_ok_inv in H. destruct H as (? & _ & H). discriminate. }
  apply bind_ok_inv in H. destruct H as (h' & Hh & H). injection H as <-.
  pose proof (h1_room b h' Hb Hh). lia.
Qed.
Theorem C71_v0_message_bounded : forall b d m, bytes_ok b -> v0_parse b = Ok (P0 d m) ->
  (held (fun _ => 1%nat) m + 20 <= len b)%nat.
Proof.
  intros b d m Hb H. unfold v0_parse in H. destruct (len b <? 2)%nat; [discriminate|].
  apply bind_ok_inv in H. destruct H as (t & _ & H). destruct (struct0 t) as [d'|].
  2: { apply bind_ok_inv in H. destruct H as (? & _ & H). discriminate. }
  apply bind_ok_inv in H. destruct H as (m' & Hm & H).
  injection H as <- <-. apply (parse_w io0 ho0 (fun _ => 1%nat)) in Hm. destruct Hm as (h & Hh & _ & HW).
  cbn in Hh. destruct (h0_parse_inv b h Hb Hh) as (_ & Hp & H20 & EP & _).
  assert (HL : (20 + len (h0_payload h) = len b)%nat) by (rewrite EP, skipn_length; lia).
  destruct HW as [->|(ies & Hi & HW)]; [lia|].
  pose proof (C71_v0_ies_bounded _ ies Hp Hi) as HB.
  enough (list_sum (map (fun _ : ie1 => 1%nat) ies) = List.length ies) as EQ by (rewrite EQ in HW; cbn in *; lia).
  clear. induction ies as [|x l IH]; [reflexivity|]. cbn [map List.length]. rewrite sum_cons, IH. reflexivity.
Qed.
Example C71_messages_nonvacuous :
  (exists d m, v1_parse [54; 1; 0; 12; 0; 0; 0; 0; 0; 1; 0; 64; 1; 9; 9; 0; 14; 7; 14; 8] = Ok (P1 d m) /\
     held (fun _ => 1%nat) m = 2%nat /\ List.length (h1_exts (m_hdr m)) = 1%nat) /\
  (exists d m, v0_parse (30 :: 1 :: 0 :: 2 :: zeros 16 ++ [14; 7]) = Ok (P0 d m)).
Proof. split; do 2 eexists; [split; [vm_compute; reflexivity|split; reflexivity]|vm_compute; reflexivity]. Qed.

(** The number of IEs the parser starts to read, whether or not it gets to the end, is at most
    one more than a quarter of the octets. *)
Theorem C71_v2_unmarshal_calls : forall g b, bytes_ok b ->
  (4 * n_unm (fst (multi_run g b)) <= len b + 4)%nat /\ (4 * n_unm (msg_calls g b) <= len b)%nat.
Proof.
  assert (A : forall g b, bytes_ok b -> (4 * n_unm (fst (multi_run g b)) <= len b + 4)%nat).
  { intros g b Hb. pose proof (proj1 (proj2 (cost g (len b + 2)) b Hb)) as H. unfold multi_run.
    destruct (snd _) in H; lia. }
  intros g b Hb. split; [apply A, Hb|]. unfold msg_calls.
  destruct (len b <? 2)%nat; [cbn; lia|]. destruct (idx b 1) as [t|e|]; [|cbn; lia..].
  destruct (h2_parse b) as [h|e|] eqn:Eh; [|cbn; lia..].
  destruct (_ <? _)%nat; [cbn; lia|].
  destruct (h2_parse_inv b h Hb Eh) as (_ & _ & _ & _ & _ & _ & _ & Hp & _ & _ & q & Eb).
  apply (f_equal (@List.length N)) in Eb. rewrite app_length, h2_wire_len in Eb. unfold h2_mlen in Eb.
  specialize (A g _ Hp). destruct (h2_has_teid h) in Eb; lia.
Qed.
Example C71_a_failing_run : multi_run default_grouped [93; 0; 6; 0; 93; 0; 9; 0; 1; 2] = (Calls 2 0, Err EInvalidLength).
Proof. reflexivity. Qed.

(** MarshalLen is called at most (n/4)^2 times for n octets, whatever they are ... *)
Theorem C71_v2_len_calls_quadratic : forall g b, bytes_ok b ->
  (16 * n_len (fst (multi_run g b)) <= len b * len b)%nat.
Proof. intros g b Hb. exact (proj2 (proj2 (cost g (len b + 2)) b Hb)). Qed.
(** ... and d nested grouped IEs, 4 d octets, make it d (d + 1) / 2 calls. *)
Theorem C71_nested_ies_cost : forall g d, g 93 = true -> (d <= N.to_nat 16384)%nat ->
  bytes_ok (nest d) /\ len (nest d) = (4 * d)%nat /\ (exists ies, multi2 g (nest d) = Ok ies) /\
  (2 * n_len (fst (multi_run g (nest d))) = d * (d + 1))%nat.
Proof.
  intros g d Hg Hd. assert (HC := nest_cost g Hg d Hd (len (nest d) + 2)). rewrite nest_len in HC. specialize (HC ltac:(lia)).
  split; [apply nest_ok, Hd|]. split; [apply nest_len|]. split.
  - rewrite <- (proj2 (C71_same_parse g (nest d))). unfold multi_run. rewrite nest_len, HC. eexists. reflexivity.
  - unfold multi_run. rewrite nest_len, HC. cbn [fst n_len]. apply sum_seq.
Qed.

Lemma nest_msg_hdr d : (1 <= d <= N.to_nat 16381)%nat ->
  h2_parse (nest_msg d) = Ok (Hdr2 64 1 (N.of_nat (4 * d + 4)) 0 1 0 (nest d)).
Proof.
  intros Hd. assert (HL : len (nest_msg d) = (8 + 4 * d)%nat) by (unfold nest_msg; cbn [List.length]; rewrite nest_len; reflexivity).
  assert (E2 : N.of_nat (4 * d + 4) / 256 * 256 + N.of_nat (4 * d + 4) mod 256 = N.of_nat (4 * d + 4)).
  { rewrite N.mul_comm. symmetry. apply N.div_mod. discriminate. }
  unfold h2_parse. cbv zeta. rewrite HL.
  replace (8 + 4 * d <? 12)%nat with false by (symmetry; apply Nat.ltb_ge; lia).
  set (B := nest_msg d) in *.
  change (idx B 0) with (@Ok N 64). change (idx B 1) with (@Ok N 1).
  change (slice B 2 4) with (@Ok bytes [N.of_nat (4 * d + 4) / 256; N.of_nat (4 * d + 4) mod 256]).
  change (slice B 4 7) with (@Ok bytes [0; 0; 1]). change (idx B 7) with (@Ok N 0).
  cbn [bind be16]. rewrite E2. change (h2_has_teid_f 64) with false. cbv iota.
  replace (N.of_nat (4 * d + 4) <? 4) with false by (symmetry; apply N.ltb_ge; lia).
  rewrite Nat2N.id. replace (8 + 4 * d <? 4 * d + 4 + 4)%nat with false by (symmetry; apply Nat.ltb_ge; lia).
  replace (u16 (4 + N.of_nat (4 * d + 4))) with (N.of_nat (8 + 4 * d)).
  2: { unfold u16. rewrite N.mod_small; lia. }
  replace (8 <=? N.of_nat (8 + 4 * d)) with true by (symmetry; apply N.leb_le; lia).
  rewrite Nat2N.id. unfold slice. rewrite HL, Nat.leb_refl.
  replace (8 <=? 8 + 4 * d)%nat with true by (symmetry; apply Nat.leb_le; lia). cbn [andb bind].
  change (skipn 8 B) with (nest d). replace (8 + 4 * d - 8)%nat with (len (nest d)) by (rewrite nest_len; lia).
  rewrite firstn_all. reflexivity.
Qed.
Lemma nest_msg_cost g d : g 93 = true -> (1 <= d <= N.to_nat 16381)%nat ->
  (exists x m, v2_parse g (nest_msg d) = Ok (x, m)) /\ (2 * n_len (msg_calls g (nest_msg d)) = d * (d + 1))%nat.
Proof.
  intros Hg Hd. pose proof (nest_msg_hdr d Hd) as HH.
  destruct (C71_nested_ies_cost g d Hg ltac:(lia)) as (_ & HL & (ies & Hi) & HC).
  assert (H2 : (len (nest_msg d) <? 2)%nat = false).
  { apply Nat.ltb_ge. unfold nest_msg. cbn [List.length]. lia. }
  assert (HM : (len (nest d) <? md_min (struct2 1))%nat = false).
  { apply Nat.ltb_ge. rewrite HL. change (md_min (struct2 1)) with 2%nat. lia. }
  split.
  - unfold v2_parse. rewrite H2. change (idx (nest_msg d) 1) with (@Ok N 1). cbn [bind].
    unfold v2_parse_as, msg_parse. change (ho_parse ho2 (nest_msg d)) with (h2_parse (nest_msg d)). rewrite HH. cbn [bind].
    change (ho_payload ho2 (Hdr2 64 1 (N.of_nat (4 * d + 4)) 0 1 0 (nest d))) with (nest d).
    rewrite HM. change (io_multi (io2 g) (nest d)) with (multi2 g (nest d)). rewrite Hi.
    destruct (run_table_total (io2 g) (md_unm (struct2 1)) ies (fempty (struct2 1))) as (fs & ->).
    do 2 eexists. reflexivity.
  - unfold msg_calls. rewrite H2. change (idx (nest_msg d) 1) with (@Ok N 1). cbv iota. rewrite HH. cbn [h2_payload].
    rewrite HM. exact HC.
Qed.
(** The property one would want: parsing costs a bounded number of calls per octet received.
    One UDP datagram makes the parser call MarshalLen more than two thousand times per octet
    (134 million times in all), and it is an Echo Request the parser accepts. *)
Theorem C71_linear_work_refuted : exists b, bytes_ok b /\ N.of_nat (len b) <= 65507 /\
  (exists d m, v2_parse default_grouped b = Ok (d, m)) /\
  2000 * N.of_nat (len b) < N.of_nat (n_len (msg_calls default_grouped b)).
Proof.
  set (d := N.to_nat 16374). assert (Hd : N.of_nat d = 16374) by (unfold d; apply N2Nat.id). clearbody d.
  assert (HL : len (nest_msg d) = (8 + 4 * d)%nat) by (unfold nest_msg; cbn [List.length]; rewrite nest_len; reflexivity).
  destruct (nest_msg_cost default_grouped d eq_refl ltac:(lia)) as [HP HC].
  exists (nest_msg d). split; [|split; [rewrite HL; lia|split; [exact HP|]]].
  - unfold nest_msg. repeat match goal with |- bytes_ok (_ :: _) => apply bytes_ok_cons end; try reflexivity.
    + apply N.div_lt_upper_bound; lia.
    + apply N.mod_lt. lia.
    + apply nest_ok. lia.
  - rewrite HL. assert (HN : 2 * N.of_nat (n_len (msg_calls default_grouped (nest_msg d))) = N.of_nat d * (N.of_nat d + 1)) by lia.
    rewrite Hd in HN. lia.
Qed.

Print Assumptions C71_same_parse.
Print Assumptions C71_v2_ies_bounded.
Print Assumptions C71_v2_ie_bounded.
Print Assumptions C71_v2_message_bounded.
Print Assumptions C71_v1_ies_bounded.
Print Assumptions C71_v0_ies_bounded.
Print Assumptions C71_v1_message_bounded.
Print Assumptions C71_v1_tpdu_bounded.
Print Assumptions C71_v0_message_bounded.
Print Assumptions C71_v2_unmarshal_calls.
Print Assumptions C71_v2_len_calls_quadratic.
Print Assumptions C71_nested_ies_cost.
Print Assumptions C71_linear_work_refuted.
