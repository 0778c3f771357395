(** Proofs about TvCodec.v: GTPv1, continued. *)
From Coq Require Import String ZArith.
From Verif Require Import Base BaseLemmas Utils UtilsProofs TvIE TvIESpec TvIEProofs V2IEProofs V2EditProofs Spec
  V2Codec V2Codec2 V2Pco CodecSpec CodecSpec2 CodecSpec4 V2CodecProofs V2CodecProofs3 V2IdProofs V2TimeProofs V2PcoProofs TvCodec TvCodecSpec
  TvCodecProofs TvCodecProofs2.
Open Scope N_scope.
Open Scope list_scope.

Lemma bytes_eqb_eq a b : bytes_eqb a b = true -> a = b.
Proof.
  revert b. induction a as [|x a IH]; intros [|y b]; cbn; try discriminate; [reflexivity|].
  intros H. apply andb_prop in H. destruct H as [H1 H2]. apply N.eqb_eq in H1. f_equal; auto.
Qed.
Lemma to4_address ip : ipv4_or_6 ip -> (len ip = 4%nat /\ to4 (Some ip) = Some ip) \/ (len ip = 16%nat /\ to4 (Some ip) = None).
Proof.
  intros [[L|[L Hn]] _]; unfold to4; rewrite L; [left; auto|right]. split; [reflexivity|]. cbn [Nat.eqb andb].
  destruct (bytes_eqb (firstn 12 ip) v4in6) eqn:E; [|reflexivity]. apply bytes_eqb_eq in E. contradiction.
Qed.
Lemma to4_mapped a : len a = 4%nat -> to4 (Some (v4in6 ++ a)) = Some a.
Proof.
  intros L. destruct a as [|a1 [|a2 [|a3 [|a4 [|]]]]]; try discriminate L. reflexivity.
Qed.
Lemma address_len ip : ipv4_or_6 ip -> (4 <= len ip <= 16)%nat.
Proof. intros [[->|[-> _]] _]; lia. Qed.
Section Tv.
Context (tv : N -> option nat) (xl : N -> bool).
Lemma address_acc t ip : (4 <= len ip)%nat -> acc_address t (new1 tv t ip) = Ok ip /\ (t = 133 -> acc_ip1 (new1 tv t ip) = Ok ip).
Proof.
  intros L. unfold acc_address. rewrite typed1_new, at_least_ok by lia. split; [reflexivity|]. intros ->.
  unfold acc_ip1. ty1. replace (len ip <? 4)%nat with false by lia. reflexivity.
Qed.
Lemma eua_made ip : ipv4_or_6 ip -> tv 128 = None -> xl 128 = false ->
  exists i n, (if (len ip =? 4)%nat then new_eua_v4 tv ip else new_eua_v6 tv ip) = Ok i /\ eua_octets ip = [241; n] ++ ip /\
    i = new1 tv 128 ([241; n] ++ ip) /\ fits1 tv xl 128 ([241; n] ++ ip).
Proof.
  intros H Ht Hx. destruct H as [Hl Hb]. assert (B : forall n, n < 256 -> bytes_ok ([241; n] ++ ip)) by (intros n Hn; apply bytes_ok_app; [repeat constructor; assumption|exact Hb]).
  assert (F : forall n, n < 256 -> fits1 tv xl 128 ([241; n] ++ ip)).
  { intros n Hn. split; [reflexivity|]. split; [apply B, Hn|]. rewrite Ht, Hx. split; [discriminate|]. rewrite app_length. cbn [List.length]. destruct Hl as [->|[-> _]]; cbn; lia. }
  unfold eua_octets. destruct Hl as [L|[L _]]; rewrite L; cbn [Nat.eqb]; eexists _, _.
  - unfold new_eua_v4. rewrite (eua_eq tv xl 33 6 ip) by lia. repeat (split; [reflexivity|]). apply F. reflexivity.
  - unfold new_eua_v6. rewrite (eua_eq tv xl 87 18 ip) by lia. repeat (split; [reflexivity|]). apply F. reflexivity.
Qed.
Lemma ppp_made : tv 128 = None -> xl 128 = false ->
  exists i, made1 tv xl (some1 (new_eua_ppp tv)) 128 [240; 241] i /\ acc_pdp_org i = Ok 240 /\ acc_pdp_number i = Ok 241.
Proof.
  intros Ht Hx. exists (new1 tv 128 [240; 241]).
  assert (E : new_eua_ppp tv = Ok (new1 tv 128 [240; 241])) by reflexivity. rewrite E. split; [|split; reflexivity].
  apply new1_made. split; [reflexivity|]. split; [repeat constructor|]. rewrite Ht, Hx. cbn. lia.
Qed.
End Tv.
Lemma gsn1_all ip : ipv4_or_6 ip ->
  exists i, made_1 (Ok (new_gsn1 (Some ip))) 133 ip i /\ acc_address 133 i = Ok ip /\ acc_ip1 i = Ok ip.
Proof.
  intros H. pose proof (address_len ip H). exists (new1 tv1 133 ip). split.
  - assert (E : new_gsn1 (Some ip) = Some (new1 tv1 133 ip)).
    { unfold new_gsn1. destruct (to4_address ip H) as [[_ ->]|[_ ->]]; reflexivity. }
    rewrite E. apply new1_made. fit. apply H.
  - destruct (address_acc tv1 xl1 133 ip) as [A B]; auto. lia.
Qed.
Lemma gsn1_mapped a : octets 4 a -> new_gsn1 (Some (v4in6 ++ a)) = new_gsn1 (Some a).
Proof.
  intros [L _]. unfold new_gsn1. rewrite to4_mapped by exact L. unfold to4. rewrite L. reflexivity.
Qed.
Lemma eua1_all ip : ipv4_or_6 ip ->
  exists i, made_1 (new_eua1 (Some ip)) 128 (eua_octets ip) i /\ acc_ip1 i = Ok ip /\ acc_pdp_org i = Ok 241 /\
    acc_pdp_number i = Ok (if (len ip =? 4)%nat then 33 else 87) /\ acc_raw 128 i = Ok (eua_octets ip).
Proof.
  intros H. pose proof (address_len ip H). destruct (eua_made tv1 xl1 ip H eq_refl eq_refl) as (i & n & E & Eo & -> & F).
  exists (new1 tv1 128 ([241; n] ++ ip)). destruct (eua_acc tv1 xl1 n ip ltac:(lia)) as (A & B & C & D). rewrite Eo. split.
  - assert (E' : new_eua1 (Some ip) = Ok (Some (new1 tv1 128 ([241; n] ++ ip)))).
    { unfold new_eua1. destruct (to4_address ip H) as [[L T]|[L T]]; rewrite T; rewrite L in E; cbn [Nat.eqb] in E; rewrite E; reflexivity. }
    rewrite E'. apply new1_made, F.
  - rewrite C. unfold eua_octets in Eo. injection Eo as <-. repeat split; assumption.
Qed.
(** ** Access point names *)
Lemma apn_loop1_spec ls : forall fuel p, Forall (fun l => len l < 256)%nat ls -> (List.length ls < fuel)%nat ->
  apn_loop1 fuel (p ++ encs ls) (len p) = Ok ls.
Proof.
  induction ls as [|l ls IH]; intros [|fuel] p Hs Hf; try (cbn in Hf; lia); cbn [apn_loop1].
  - cbn [encs flat_map]. rewrite app_nil_r, Nat.ltb_irrefl. reflexivity.
  - rewrite Forall_cons_iff in Hs. destruct Hs as [Hl Hs]. rewrite encs_cons.
    set (B := p ++ enc_label l ++ encs ls).
    assert (HB : len B = (len p + S (len l + len (encs ls)))%nat) by (unfold B, enc_label; rewrite !app_length; cbn [List.length]; lia).
    replace (len p <? len B)%nat with true by lia.
    replace (idx B (len p)) with (@Ok N (N.of_nat (len l))).
    2:{ unfold B. rewrite idx_app_r, Nat.sub_diag by lia. cbn. unfold u8. rewrite N.mod_small by lia. reflexivity. }
    cbn [bind]. cbv zeta. rewrite Nat2N.id. replace (len B <? len p + len l + 1)%nat with false by lia.
    replace (slice B (len p + 1) (len p + len l + 1)) with (@Ok bytes l).
    2:{ symmetry. unfold B, enc_label. change ((u8 (N.of_nat (len l)) :: l) ++ encs ls) with ([u8 (N.of_nat (len l))] ++ l ++ encs ls).
        rewrite (app_assoc p). apply slice_mid; rewrite app_length; cbn [List.length]; lia. }
    cbn [bind]. replace (len p + (len l + 1))%nat with (len (p ++ enc_label l)) by (rewrite app_length; cbn [enc_label List.length]; lia).
    unfold B. rewrite app_assoc, IH by (try assumption; cbn in Hf; lia). reflexivity.
Qed.
Lemma apn_labels ls : ls <> [] -> Forall (fun l => ~ In dot l /\ (len l < 256)%nat) ls ->
  encs (split_dot (labels_to_string ls)) = labels_octets ls /\ encs ls = labels_octets ls /\ Forall (fun l => len l < 256)%nat ls /\ join_dot ls = labels_to_string ls.
Proof.
  intros Hne Hf.
  assert (Hd : Forall (fun l => ~ In dot l) ls) by (eapply Forall_impl; [|exact Hf]; cbn; tauto).
  assert (Hl : Forall (fun l => len l < 256)%nat ls) by (eapply Forall_impl; [|exact Hf]; cbn; tauto).
  assert (E : encs ls = labels_octets ls).
  { unfold encs, labels_octets. clear Hne Hf Hd. induction Hl as [|l r Hl Hr IH]; cbn [flat_map]; [reflexivity|].
    rewrite IH. unfold enc_label, u8. rewrite N.mod_small by lia. reflexivity. }
  rewrite labels_join, split_join by assumption. auto.
Qed.
Lemma labels_bytes ls : Forall (fun l => bytes_ok l /\ (len l < 256)%nat) ls -> bytes_ok (labels_octets ls).
Proof.
  unfold labels_octets. induction 1 as [|l r [Hl1 Hl2] Hr IH]; cbn [flat_map]; [constructor|].
  apply bytes_ok_app; [|exact IH]. apply bytes_ok_cons; [unfold is_byte; lia|exact Hl1].
Qed.
Lemma apn1_all ls : ls <> [] -> Forall (fun l => ~ In dot l /\ bytes_ok l /\ (len l < 256)%nat) ls -> (len (labels_octets ls) < N.to_nat 65536)%nat ->
  exists i, made_1 (some1 (new_apn1 tv1 (labels_to_string ls))) 131 (labels_octets ls) i /\ acc_apn1 i = Ok (labels_to_string ls).
Proof.
  intros Hne Hf Hs. destruct (apn_labels ls Hne) as (E1 & E2 & Hl & J). { eapply Forall_impl; [|exact Hf]. cbn; tauto. }
  assert (B : bytes_ok (labels_octets ls)) by (apply labels_bytes; eapply Forall_impl; [|exact Hf]; cbn; tauto).
  eexists. split. { rewrite <- E1. apply apn_made. rewrite E1. fit. exact B. }
  unfold acc_apn1. rewrite typed1_new, E1, <- E2.
  pose proof (apn_loop1_spec ls (S (len (encs ls))) [] Hl) as L. cbn [app List.length] in L. rewrite L by (pose proof (encs_len_ge ls); lia).
  cbn [bind]. rewrite J. reflexivity.
Qed.
(** ** Authentication vectors *)
Lemma triplet_all rand sres kc : octets 16 rand -> octets 4 sres -> octets 8 kc ->
  exists i, made_1 (some1 (new_triplet rand sres kc)) 9 (rand ++ sres ++ kc) i /\
    acc_rand i = Ok rand /\ acc_sres i = Ok sres /\ acc_kc i = Ok kc /\ acc_raw 9 i = Ok (rand ++ sres ++ kc).
Proof.
  intros [L1 B1] [L2 B2] [L3 B3]. exists (new1 tv1 9 (rand ++ sres ++ kc)). split.
  - assert (E : new_triplet rand sres kc = Ok (new1 tv1 9 (rand ++ sres ++ kc))).
    { unfold new_triplet. rewrite (w_start (zeros _)). wr. wr. wr. rewrite w_end by len_tac. rewrite filled1_new by len_tac.
      cbn [app]. rewrite <- app_assoc. reflexivity. }
    rewrite E. apply new1_made. assert (len (rand ++ sres ++ kc) = 28%nat) by len_tac. fit. repeat (apply bytes_ok_app; auto).
  - unfold acc_rand, acc_sres, acc_kc, acc_raw. rewrite !typed1_new. ty1. cbn [orb]. rewrite !at_least_ok by len_tac.
    split; [apply (slice_mid [] rand (sres ++ kc)); cbn; lia|].
    split; [apply (slice_mid rand sres kc); lia|]. split; [|reflexivity].
    rewrite <- (app_nil_r (rand ++ sres ++ kc)). rewrite (app_assoc rand), <- (app_assoc (rand ++ sres) kc). apply slice_mid; len_tac.
Qed.
Lemma quintuplet_eq rand xres ck ik autn : octets 16 rand -> octets 16 ck -> octets 16 ik -> (len xres < 256)%nat -> (len autn < 256)%nat ->
  new_quintuplet rand xres ck ik autn = Ok (new1 tv1 136 (quintuplet_octets rand xres ck ik autn)).
Proof.
  intros [L1 _] [L2 _] [L3 _] Lx La. unfold new_quintuplet. cbv zeta. rewrite (u8_len xres) by exact Lx. rewrite (u8_len autn) by exact La.
  rewrite (w_start (zeros _)). wr. wr. wr. wr. wr. wr. wr. rewrite w_end by len_tac. rewrite filled1_new by len_tac.
  unfold quintuplet_octets. cbn [app]. rewrite <- !app_assoc. reflexivity.
Qed.
Lemma quintuplet_all rand xres ck ik autn : octets 16 rand -> octets 16 ck -> octets 16 ik ->
  bytes_ok xres -> (len xres < 256)%nat -> bytes_ok autn -> (len autn < 256)%nat -> let q := quintuplet_octets rand xres ck ik autn in
  exists i, made_1 (some1 (new_quintuplet rand xres ck ik autn)) 136 q i /\
    acc_rand i = Ok rand /\ acc_xres i = Ok xres /\ acc_ck i = Ok ck /\ acc_ik i = Ok ik /\ acc_quintuplet i = Ok q.
Proof.
  intros O1 O2 O3 Bx Lx Ba La q. rewrite quintuplet_eq by assumption. fold q. exists (new1 tv1 136 q).
  destruct O1 as [L1 B1], O2 as [L2 B2], O3 as [L3 B3].
  assert (Lq : len q = (50 + len xres + len autn)%nat) by (unfold q, quintuplet_octets; len_tac). split.
  - apply new1_made. fit. unfold q, quintuplet_octets. repeat (apply bytes_ok_app; auto); apply bytes_ok1; lia.
  - unfold acc_rand, acc_xres, acc_ck, acc_ik, acc_quintuplet. rewrite !typed1_new. ty1. cbn [orb]. rewrite Lq. cbn [Nat.add Nat.eqb]. rewrite !(at_least_ok 16), !(at_least_ok 17), !(at_least_ok 18), !(at_least_ok 34), !(at_least_ok 1) by lia.
    assert (I : idx q 16 = Ok (N.of_nat (len xres))) by (unfold q, quintuplet_octets; rewrite idx_app_r, L1 by lia; reflexivity).
    rewrite I. cbn [bind]. rewrite Nat2N.id. rewrite !at_least_ok by lia. unfold q, quintuplet_octets.
    set (rest := [N.of_nat (len autn)] ++ autn). set (h := rand ++ [N.of_nat (len xres)]).
    assert (Lh : len h = 17%nat) by (unfold h; len_tac).
    replace (rand ++ [N.of_nat (len xres)] ++ xres ++ ck ++ ik ++ rest) with (h ++ xres ++ ck ++ ik ++ rest) by (unfold h; rewrite <- app_assoc; reflexivity).
    repeat split.
    + unfold h. rewrite <- app_assoc. apply (slice_mid [] rand); cbn; lia.
    + apply slice_mid; lia.
    + rewrite (app_assoc h). apply slice_mid; len_tac.
    + rewrite (app_assoc h), (app_assoc (h ++ xres)). apply slice_mid; len_tac.
Qed.
