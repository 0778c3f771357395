(** Proofs about TvCodec.v: GTPv1. *)
From Coq Require Import String ZArith.
From Verif Require Import Base BaseLemmas Utils UtilsProofs TvIE TvIESpec TvIEProofs V2IEProofs V2EditProofs Spec
  V2Codec V2Codec2 V2Pco CodecSpec CodecSpec2 CodecSpec4 V2CodecProofs V2CodecProofs3 V2IdProofs V2TimeProofs V2PcoProofs TvCodec TvCodecSpec TvCodecProofs.
Open Scope N_scope.
Open Scope list_scope.

Notation made_1 := (made1 tv1 xl1).
Notation fits_1 := (fits1 tv1 xl1).
(** [fit]: the value fits; leaves the octets *)
Ltac look f := match goal with |- context [f ?t] => let x := eval vm_compute in (f t) in change (f t) with x end; cbv iota.
Ltac fit := split; [reflexivity|split; [|first [look tv1|look tv0]; (split; [|try split]); try first [look xl1|look xl0]; try reflexivity; try discriminate; try lia]].
Ltac ty1 := cbn [new1 set_length1 i1_type i1_payload]; repeat match goal with
  | |- context [N.eqb (N.pos ?a) (N.pos ?b)] =>
     let x := eval vm_compute in (N.eqb (N.pos a) (N.pos b)) in change (N.eqb (N.pos a) (N.pos b)) with x end; cbv iota.

Lemma bytes_ok1 v : v < 256 -> bytes_ok [v].
Proof. intros. repeat constructor. exact H. Qed.
Lemma octet1 n t v : In (n, t) octet_codes1 -> v < 256 ->
  In (n, t) octet_ies1 /\ made_1 (Ok (Some (new8 tv1 t v))) t [v] (new8 tv1 t v) /\ acc8 t (new8 tv1 t v) = Ok v.
Proof.
  intros H Hv. split; [exact H|]. apply octet_all; [|exact Hv].
  cbn in H. decompose [or] H; try contradiction; match goal with E : (_, _) = (n, t) |- _ => injection E as <- <- end;
    (fit; apply bytes_ok1, Hv).
Qed.
Lemma word1 n t v : In (n, t) word_codes1 -> v < 2 ^ 32 ->
  In (n, t) word_ies1 /\ exists i, made_1 (some1 (new32 tv1 t v)) t (enc32 v) i /\ acc32 t i = Ok v.
Proof.
  intros H Hv. split; [exact H|]. eexists. apply word_all; [|exact Hv].
  cbn in H. decompose [or] H; try contradiction; match goal with E : (_, _) = (n, t) |- _ => injection E as <- <- end;
    (fit; apply enc32_ok).
Qed.
Lemma teid1 n t v : In (n, t) teid_codes1 -> v < 2 ^ 32 ->
  In (n, t) teid_ies1 /\ exists i, made_1 (some1 (new32 tv1 t v)) t (enc32 v) i /\ acc_teid1 i = Ok v.
Proof.
  intros H Hv. split; [exact H|]. exists (new1 tv1 t (enc32 v)). split.
  - rewrite new32_eq. apply new1_made. cbn in H. decompose [or] H; try contradiction; match goal with E : (_, _) = (n, t) |- _ => injection E as <- <- end;
    (fit; apply enc32_ok).
  - unfold acc_teid1. cbn [new1 set_length1 i1_payload i1_type].
    change (len (enc32 v) <? 4)%nat with false. cbv iota. rewrite be32_enc' by exact Hv.
    cbn in H. decompose [or] H; try contradiction; match goal with E : (_, _) = (n, t) |- _ => injection E as <- <- end; reflexivity.
Qed.
Lemma raw1 n t v : In (n, t) raw_codes1 -> bytes_ok v -> (len v < 256)%nat \/ (t = 135 /\ (len v < N.to_nat 65536)%nat) ->
  In (n, t) raw_ies1 /\ made_1 (Ok (Some (new1 tv1 t v))) t v (new1 tv1 t v) /\ acc_raw t (new1 tv1 t v) = Ok v.
Proof.
  intros H Hv Hl. split; [cbn in *; tauto|]. apply raw_all.
  cbn in H. decompose [or] H; try contradiction; match goal with E : (_, _) = (n, t) |- _ => injection E as <- <- end;
    (fit; exact Hv).
Qed.
Lemma flag1 n t b : In (n, t) flag_codes1 ->
  In (n, t) flag_ies1 /\ made_1 (Ok (Some (new_flag tv1 t b))) t [if b then 255 else 254] (new_flag tv1 t b) /\ acc_flag t (new_flag tv1 t b) = Ok b.
Proof.
  intros H. split; [exact H|]. apply flag_all.
  cbn in H. decompose [or] H; try contradiction; match goal with E : (_, _) = (n, t) |- _ => injection E as <- <- end;
    (fit; destruct b; repeat constructor).
Qed.
Lemma ptmsi_sig1_all v : v < 2 ^ 24 -> made_1 (Ok (Some (new_ptmsi_sig1 tv1 v))) 12 (enc24 v) (new_ptmsi_sig1 tv1 v) /\ acc_ptmsi_sig1 (new_ptmsi_sig1 tv1 v) = Ok v.
Proof. intros H. apply ptmsi_sig_all; [fit; apply enc24_ok|exact H]. Qed.
Lemma flags8 t a b c d e f g h : t = 148 \/ t = 193 -> let i := new_flags1 t (map b2n [a; b; c; d; e; f; g; h]) in
  made_1 (Ok (Some i)) t [bits_octet [a; b; c; d; e; f; g; h]] i /\
  map (fun k => is_set1 t k i) [7; 6; 5; 4; 3; 2; 1; 0] = map (@Ok bool) [a; b; c; d; e; f; g; h] /\
  acc8 t i = Ok (bits_octet [a; b; c; d; e; f; g; h]).
Proof.
  intros Ht i.
  assert (B : shifted (map b2n [a; b; c; d; e; f; g; h]) = bits_octet [a; b; c; d; e; f; g; h] /\ bits_octet [a; b; c; d; e; f; g; h] < 256)
    by (destruct a, b, c, d, e, f, g, h; split; reflexivity).
  destruct B as [B L]. unfold i, new_flags1. rewrite B. unfold u8. rewrite N.mod_small by exact L.
  split; [|split].
  - apply new1_made. destruct Ht as [->| ->]; (fit; apply bytes_ok1, L).
  - unfold is_set1, acc8. rewrite typed1_new.
    change (at_least 1 (octet_at 0) [bits_octet [a; b; c; d; e; f; g; h]]) with (Ok (bits_octet [a; b; c; d; e; f; g; h])). cbn [must bind map].
    destruct a, b, c, d, e, f, g, h; reflexivity.
  - unfold acc8. rewrite typed1_new. reflexivity.
Qed.
Lemma flags3 a b c : let i := new_flags1 218 (map b2n [a; b; c]) in
  made_1 (Ok (Some i)) 218 [bits_octet [a; b; c]] i /\
  map (fun k => is_set1 218 k i) [2; 1; 0] = map (@Ok bool) [a; b; c] /\ acc8 218 i = Ok (bits_octet [a; b; c]).
Proof.
  intros i. split; [|split; [destruct a, b, c; reflexivity|destruct a, b, c; reflexivity]].
  assert (E : i = new1 tv1 218 [bits_octet [a; b; c]]) by (unfold i; destruct a, b, c; reflexivity).
  rewrite E. apply new1_made. fit. apply bytes_ok1. destruct a, b, c; reflexivity.
Qed.
(** ** Identities *)
Lemma div2_15 : (Nat.div (15 + 1) 2 = 8)%nat. Proof. reflexivity. Qed.
Lemma imsi1_15 s : Forall digit s -> len s = 15%nat -> exists i, made_1 (new_imsi1 s) 2 (tbcd s) i /\ acc_imsi1 i = Ok s.
Proof.
  intros H L. exists (new1 tv1 2 (tbcd s)). pose proof (tbcd_len s H) as T. rewrite L in T. split.
  - apply digits1_made; [apply digits_lowhex, H|]. fit; apply tbcd_ok, H.
  - unfold acc_imsi1. rewrite typed1_new, at_least_ok by lia. destruct (tbcd_back s (digits_lowhex s H)) as [B _]. rewrite L in B. exact B.
Qed.
Lemma imsi1_16 s : Forall digit s -> len s = 16%nat -> exists i, made_1 (new_imsi1 s) 2 (tbcd s) i /\ acc_imsi1 i = Ok (firstn 15 s).
Proof.
  intros H L. exists (new1 tv1 2 (tbcd s)). pose proof (tbcd_len s H) as T. rewrite L in T. split.
  - apply digits1_made; [apply digits_lowhex, H|]. fit; apply tbcd_ok, H.
  - unfold acc_imsi1. rewrite typed1_new, at_least_ok by lia. destruct (tbcd_back s (digits_lowhex s H)) as [B _]. rewrite L in B. cbn in B.
    rewrite swapped_to_str_alt in *. rewrite T in *. cbn [Nat.eqb] in *. cbv zeta in *. apply Ok_inj in B. rewrite B. unfold slice_to. rewrite slice_ok by lia. rewrite L. reflexivity.
Qed.
Lemma tbcd_app s q : Nat.even (len s) = true -> tbcd (s ++ q) = tbcd s ++ tbcd q.
Proof.
  revert s. fix IH 1. intros [|a [|b s]]; [reflexivity|discriminate|]. cbn [len List.length Nat.even]. intros E. cbn [app tbcd]. f_equal. apply IH, E.
Qed.
(** fourteen digits: the fifteenth read back is a zero nobody wrote *)
Lemma imsi1_14 s : Forall digit s -> len s = 14%nat -> exists i b j, new_imsi1 s = Ok (Some i) /\ marshal1 tv1 xl1 i = Ok b /\ parse1 tv1 xl1 b = Ok j /\
  acc_imsi1 j = Ok (s ++ [48]).
Proof.
  intros H L. pose proof (tbcd_len s H) as T. rewrite L in T. change ((14 + 1) / 2)%nat with 7%nat in T.
  exists (new1 tv1 2 (tbcd s)), ([2] ++ tbcd s ++ [0]), (IE1 2 0 (tbcd s ++ [0])). split.
  { unfold new_imsi1. rewrite (bcd_layout s (digits_lowhex s H)). reflexivity. }
  split; [|split].
  - destruct (tbcd s) as [|x1 [|x2 [|x3 [|x4 [|x5 [|x6 [|x7 [|]]]]]]]]; try discriminate T. reflexivity.
  - destruct (tbcd s) as [|x1 [|x2 [|x3 [|x4 [|x5 [|x6 [|x7 [|]]]]]]]]; try discriminate T. reflexivity.
  - assert (H' : Forall digit (s ++ [48; 48])) by (apply Forall_app; split; [exact H|repeat constructor; discriminate]).
    assert (E : tbcd (s ++ [48; 48]) = tbcd s ++ [0]) by (rewrite tbcd_app by (rewrite L; reflexivity); reflexivity).
    destruct (imsi1_16 (s ++ [48; 48]) H') as (j & (J1 & J2 & J3 & _) & A). { rewrite app_length, L. reflexivity. }
    rewrite firstn_app, L in A. change (firstn (15 - 14) [48; 48]) with [48] in A. rewrite firstn_all2 in A by (rewrite L; lia).
    rewrite <- A. unfold acc_imsi1, typed1. rewrite J2, J3, E. reflexivity.
Qed.
Lemma imeisv_all s : Forall digit s -> s <> [] -> (len s < N.to_nat 131070)%nat -> exists i, made_1 (new_imeisv s) 154 (tbcd s) i /\ acc_imeisv i = Ok s.
Proof.
  intros H N L. pose proof (tbcd_len s H) as T. exists (new1 tv1 154 (tbcd s)). split.
  - apply digits1_made; [apply digits_lowhex, H|]. fit; apply tbcd_ok, H.
  - unfold acc_imeisv. rewrite typed1_new. pose proof (tbcd_nonempty s N) as N'. rewrite at_least_ok by (destruct (tbcd s); [congruence|cbn; lia]).
    destruct (tbcd_back s (digits_lowhex s H)) as [B C]. rewrite <- Nat.negb_even in B. destruct (Nat.even (len s)) eqn:E; cbn [negb] in B.
    + rewrite B. cbn [bind]. rewrite trim_f_digits by exact H. reflexivity.
    + rewrite (C eq_refl). cbn [bind]. rewrite trim_f_filler. reflexivity.
Qed.
Lemma msisdn1_made s : Forall digit s -> s <> [] -> (len s < N.to_nat 131000)%nat ->
  exists i, made_1 (new_msisdn1 tv1 s) 134 (nature_of_address :: tbcd s) i /\ acc_msisdn1 i = Ok (if Nat.even (len s) then s else s ++ [102]).
Proof.
  intros H N L. apply msisdn1_all; auto. pose proof (tbcd_len s H) as T.
  assert (L' : (len (nature_of_address :: tbcd s) < N.to_nat 65536)%nat) by (cbn [List.length]; lia).
  fit. apply bytes_ok_cons; [reflexivity|apply tbcd_ok, H].
Qed.
(** ** Areas *)
Lemma plmn_parts mcc mnc : is_mcc mcc -> is_mnc mnc ->
  exists x y z, plmn_octets mcc mnc = [x; y; z] /\ encode_plmn mcc mnc = Ok [x; y; z] /\ x < 256 /\ y < 256 /\ z < 256 /\
    decode_mcc [x; y] = Ok mcc /\ decode_mnc [y; z] = Ok mnc.
Proof.
  intros H1 H2. destruct (plmn_cells mcc mnc H1 H2) as (x & y & z & Ep & E & Hx & Hy & Hz & D). exists x, y, z.
  repeat (split; [assumption|]). specialize (D []). unfold decode_plmn in D.
  change (slice [x; y; z] 0 2) with (Ok [x; y]) in D. change (slice [x; y; z] 1 3) with (Ok [y; z]) in D. cbn [bind] in D.
  destruct (decode_mcc [x; y]) as [m| |]; [|discriminate D|discriminate D]. cbn [bind] in D.
  destruct (decode_mnc [y; z]) as [n| |]; [|discriminate D|discriminate D]. cbn [bind] in D. apply Ok_inj in D. inversion D. auto.
Qed.
Lemma rai1_cells x y z lac rac : lac < 2 ^ 16 -> let i := new1 tv1 3 ([x; y; z] ++ enc16 lac ++ [rac]) in
  acc_mcc1 i = decode_mcc [x; y] /\ acc_mnc1 i = decode_mnc [y; z] /\ acc_lac1 i = Ok lac /\ acc_rac1 i = Ok rac.
Proof.
  intros Hl i. unfold i, acc_mcc1, acc_mnc1, acc_lac1, acc_rac1. ty1. rewrite !at_least_ok by (cbn; lia).
  split; [reflexivity|]. split; [reflexivity|]. split; [|reflexivity].
  unfold be16_at. change (slice ([x; y; z] ++ enc16 lac ++ [rac]) 3 (3 + 2)) with (Ok (enc16 lac)). cbn [bind]. apply be16_enc'. exact Hl.
Qed.
Lemma rai1_two mcc mnc lac rac : is_mcc mcc -> Forall digit mnc -> (2 <= len mnc <= 3)%nat -> lac < 2 ^ 16 -> rac < 256 ->
  exists i, made_1 (new_rai1 mcc mnc lac rac) 3 (plmn_octets mcc (firstn 2 mnc) ++ enc16 lac ++ [rac]) i /\
    acc_mcc1 i = Ok mcc /\ acc_mnc1 i = Ok (firstn 2 mnc) /\ acc_lac1 i = Ok lac /\ acc_rac1 i = Ok rac.
Proof.
  intros [L1 D1] D2 L2 Hl Hr. destruct (len3 mcc L1) as (a & b & c & ->).
  assert (S : exists x y r, mnc = x :: y :: r /\ (r = [] \/ exists z, r = [z])).
  { destruct mnc as [|x [|y [|z [|]]]]; cbn in L2; try lia; eexists _, _, _; (split; [reflexivity|eauto]). }
  destruct S as (x & y & r & -> & Hz). cbn [firstn].
  assert (M : is_mcc [a; b; c]) by (split; assumption).
  assert (Hxy : Forall digit [x; y]) by (rewrite !Forall_cons_iff in D2; rewrite !Forall_cons_iff; intuition auto).
  assert (N : is_mnc [x; y]) by (split; [left; reflexivity|exact Hxy]).
  destruct (plmn_parts [a; b; c] [x; y] M N) as (p & q & s & Ep & _ & Hp & Hq & Hs & Dm & Dn).
  exists (new1 tv1 3 ([p; q; s] ++ enc16 lac ++ [rac])). rewrite Ep.
  destruct (rai1_cells p q s lac rac Hl) as (A1 & A2 & A3 & A4). split; [|rewrite A1, A2; auto].
  assert (E : new_rai1 [a; b; c] (x :: y :: r) lac rac = Ok (Some (new1 tv1 3 ([p; q; s] ++ enc16 lac ++ [rac])))).
  { unfold new_rai1. rewrite (bcd_layout [a; b; c]) by (apply digits_lowhex, D1). rewrite (bcd_layout (x :: y :: r)) by (apply digits_lowhex, D2).
    unfold plmn_octets in Ep. injection Ep as E1 E2 E3.
    assert (F : forall d, digit d -> hex_value d = d - 48) by (intros d Hd; unfold digit in Hd; unfold hex_value; replace (d <? 58) with true by lia; reflexivity).
    rewrite !Forall_cons_iff in D1. rewrite !Forall_cons_iff in Hxy. destruct D1 as (Da & Db & Dc & _), Hxy as (Dx & Dy & _).
    cbn [tbcd]. rewrite (F a Da), (F b Db), (F c Dc), (F x Dx), (F y Dy). rewrite E1. rewrite E2. rewrite E3.
    destruct Hz as [->|[z ->]]; reflexivity. }
  rewrite E. apply new1_made. fit. apply bytes_ok_app; [repeat constructor; assumption|]. apply bytes_ok_app; [apply enc16_ok|apply bytes_ok1, Hr].
Qed.
Lemma rai1_empty mcc lac rac : is_mcc mcc -> new_rai1 mcc [] lac rac = Panic.
Proof.
  intros [L1 D1]. unfold new_rai1. rewrite (bcd_layout mcc) by (apply digits_lowhex, D1). destruct (len3 mcc L1) as (a & b & c & ->). reflexivity.
Qed.
Lemma uli_cells loc x y z lac e : lac < 2 ^ 16 -> (1 <= len e)%nat -> let i := new1 tv1 152 (area_octets loc [x; y; z] lac e) in
  acc_mcc1 i = decode_mcc [x; y] /\ acc_mnc1 i = decode_mnc [y; z] /\ acc_lac1 i = Ok lac.
Proof.
  intros Hl He i. unfold i, acc_mcc1, acc_mnc1, acc_lac1, area_octets. ty1. rewrite !at_least_ok by (rewrite !app_length; cbn; lia).
  split; [reflexivity|]. split; [reflexivity|].
  unfold be16_at. change (slice ([loc] ++ [x; y; z] ++ enc16 lac ++ e) 4 (4 + 2)) with (Ok (enc16 lac)). cbn [bind]. apply be16_enc'. exact Hl.
Qed.
Lemma uli_area_all loc mcc mnc lac x : loc < 2 -> is_mcc mcc -> is_mnc mnc -> lac < 2 ^ 16 -> x < 2 ^ 16 ->
  exists i, made_1 (new_uli_area loc mcc mnc lac x) 152 (area_octets loc (plmn_octets mcc mnc) lac (enc16 x)) i /\
    acc_mcc1 i = Ok mcc /\ acc_mnc1 i = Ok mnc /\ acc_lac1 i = Ok lac /\ acc_area loc i = Ok x /\
    acc_rac1 i = Err EInvalidType /\ (forall l, l <> loc -> acc_area l i = Err EInvalidType).
Proof.
  intros Hloc H1 H2 Hl Hx. destruct (plmn_parts mcc mnc H1 H2) as (p & q & s & Ep & E & Hp & Hq & Hs & Dm & Dn). rewrite Ep.
  set (v := area_octets loc [p; q; s] lac (enc16 x)). exists (new1 tv1 152 v).
  destruct (uli_cells loc p q s lac (enc16 x) Hl ltac:(cbn; lia)) as (A1 & A2 & A3). fold v in A1, A2, A3.
  split; [|split; [congruence|split; [congruence|split; [assumption|]]]].
  - assert (Ev : new_uli_area loc mcc mnc lac x = Ok (Some (new1 tv1 152 v))) by (unfold new_uli_area; rewrite E; reflexivity).
    rewrite Ev. apply new1_made. fit. unfold v, area_octets. apply bytes_ok_app; [apply bytes_ok1; lia|].
    apply bytes_ok_app; [repeat constructor; assumption|]. apply bytes_ok_app; apply enc16_ok.
  - unfold acc_area, acc_rac1. rewrite !typed1_new. ty1. rewrite !at_least_ok by (cbn; lia).
    change (idx v 0) with (Ok loc). cbn [bind]. rewrite N.eqb_refl. unfold be16_at.
    change (slice v 6 (6 + 2)) with (Ok (enc16 x)). cbn [bind]. rewrite be16_enc' by exact Hx.
    split; [reflexivity|]. split; [replace (loc =? 2) with false by lia; reflexivity|].
    intros l Hn.
    rewrite typed1_new.
    rewrite at_least_ok by (cbn; lia). change (idx v 0) with (Ok loc). cbn [bind]. replace (loc =? l) with false by lia. reflexivity.
Qed.
Lemma uli_rai_all mcc mnc lac rac : is_mcc mcc -> is_mnc mnc -> lac < 2 ^ 16 -> rac < 256 ->
  exists i, made_1 (new_uli_rai mcc mnc lac rac) 152 (area_octets 2 (plmn_octets mcc mnc) lac [rac]) i /\
    acc_mcc1 i = Ok mcc /\ acc_mnc1 i = Ok mnc /\ acc_lac1 i = Ok lac /\ acc_rac1 i = Ok rac /\
    acc_cgi1 i = Err EInvalidType /\ acc_sac1 i = Err EInvalidType.
Proof.
  intros H1 H2 Hl Hx. destruct (plmn_parts mcc mnc H1 H2) as (p & q & s & Ep & E & Hp & Hq & Hs & Dm & Dn). rewrite Ep.
  set (v := area_octets 2 [p; q; s] lac [rac]). exists (new1 tv1 152 v).
  destruct (uli_cells 2 p q s lac [rac] Hl ltac:(cbn; lia)) as (A1 & A2 & A3). fold v in A1, A2, A3.
  split; [|split; [congruence|split; [congruence|split; [assumption|repeat split]]]].
  assert (Ev : new_uli_rai mcc mnc lac rac = Ok (Some (new1 tv1 152 v))) by (unfold new_uli_rai; rewrite E; reflexivity).
  rewrite Ev. apply new1_made. fit. unfold v, area_octets. apply bytes_ok_app; [apply bytes_ok1; lia|].
  apply bytes_ok_app; [repeat constructor; assumption|]. apply bytes_ok_app; [apply enc16_ok|apply bytes_ok1, Hx].
Qed.
