(** TrafficFlowTemplate answers exactly the payloads that spell a template. *)
From Coq Require Import ZArith Lia.
From Verif Require Import Base BaseLemmas Utils UtilsProofs V2IE V2IESpec V2IEProofs V2Codec V2Tft CodecSpec CodecSpec3 V2CodecProofs V2CodecProofs3 V2CodecProofs5 V2TftProofs TftAnswerSpec.
Open Scope N_scope.
Open Scope list_scope.

Lemma spare_first s d i : s < 4 -> d < 4 -> i < 16 ->
  N.land (N.shiftr (64 * s + 16 * d + i) 4) 3 = d /\ N.land (64 * s + 16 * d + i) 15 = i.
Proof.
  intros Hs Hd Hi. change 3 with (N.ones 2). change 15 with (N.ones 4). rewrite !N.land_ones, N.shiftr_div_pow2. change (2 ^ 4) with 16. change (2 ^ 2) with 4. 
  split; lia.
Qed.
Lemma filter_spelled_parse f w rest : filter_spelled f w -> filter_parse (w ++ rest) = Ok f.
Proof.
  intros [(Hd & Hi & Hp & Hl & Hc & Hn) (s & Hs & ->)]. destruct f as [d i p n cs]. cbn [pf_dir pf_id pf_prec pf_length pf_comps] in *.
  destruct (spare_first s d i Hs Hd Hi) as [F1 F2]. unfold filter_parse. set (x := 64 * s + 16 * d + i) in *. clearbody x.
  cbn [app].
  set (b := x :: p :: n :: flat_map comp_octets cs ++ rest). assert (L : len b = (3 + N.to_nat n + len rest)%nat) by (unfold b; cbn [List.length]; rewrite app_length, Hn; lia).
  cbv zeta. replace (len b <? 3)%nat with false by lia.
  change (idx b 0) with (Ok x). change (idx b 1) with (Ok p). change (idx b 2) with (Ok n). cbn [bind].
  replace (len b <? 3 + N.to_nat n)%nat with false by lia.
  replace b with ([x; p; n] ++ flat_map comp_octets cs ++ rest) by reflexivity. rewrite slice_app_eq by (cbn; lia). cbn [bind].
  rewrite comps_parse_all by assumption. cbn [bind]. rewrite F1, F2. reflexivity.
Qed.
Lemma filter_spelled_len f w : filter_spelled f w -> filter_mlen f = len w.
Proof. intros [_ (s & _ & ->)]. rewrite filter_mlen_octets. reflexivity. Qed.
Lemma filters_spelled_parse l ws : Forall2 filter_spelled l ws -> forall done rest,
  filters_parse (List.length l) (done ++ concat ws ++ rest) (len done) = Ok (l, len (done ++ concat ws)).
Proof.
  induction 1 as [|f w l ws Hf Hl IH]; intros done rest; cbn [filters_parse concat List.length].
  - rewrite app_nil_r. reflexivity.
  - rewrite slice_from_app by reflexivity. cbn [bind]. rewrite <- app_assoc, (filter_spelled_parse f w) by assumption. cbn [bind].
    replace (len done + filter_mlen f)%nat with (len (done ++ w)) by (rewrite app_length, (filter_spelled_len f w Hf); reflexivity).
    rewrite (app_assoc done). rewrite IH. cbn [bind fst snd]. rewrite <- app_assoc. reflexivity.
Qed.
Lemma filters_parse_back n : forall done r l o, bytes_ok r -> filters_parse n (done ++ r) (len done) = Ok (l, o) ->
  List.length l = n /\ exists ws rest, Forall2 filter_spelled l ws /\ r = concat ws ++ rest /\ o = len (done ++ concat ws).
Proof.
  induction n as [|n IH]; intros done r l o Hb E; cbn [filters_parse] in E.
  - apply Ok_inj in E. injection E as <- <-. split; [reflexivity|]. exists [], r. split; [constructor|]. split; [reflexivity|]. cbn [concat]. rewrite app_nil_r. reflexivity.
  - rewrite slice_from_app in E by reflexivity. cbn [bind] in E.
    apply bind_ok_inv in E. destruct E as (f & Ef & E). apply bind_ok_inv in E. destruct E as ([l' o'] & E' & E).
    apply Ok_inj in E. cbn [fst snd] in E. injection E as <- <-.
    destruct (filter_parse_inv _ _ Hb Ef) as (Hf & s & rest & Hs & Er).
    set (w := filter_octets_sp s f) in *. assert (W : filter_spelled f w) by (split; [exact Hf|exists s; split; [exact Hs|reflexivity]]).
    rewrite Er in E'. replace (len done + filter_mlen f)%nat with (len (done ++ w)) in E' by (rewrite app_length, (filter_spelled_len f w W); reflexivity).
    rewrite app_assoc in E'. rewrite Er in Hb. apply bytes_ok_app_inv in Hb.
    destruct (IH (done ++ w) rest l' o' (proj2 Hb) E') as (L & ws & rest' & A & B & C).
    split; [cbn; lia|]. exists (w :: ws), rest'. split; [constructor; assumption|]. cbn [concat]. rewrite Er, B, C, <- !app_assoc. split; reflexivity.
Qed.
Lemma first_bits x : x < 256 -> N.shiftr x 5 = x / 32 /\ N.land x 15 = x mod 16 /\ (N.land (N.shiftr x 4) 1 =? 1) = N.odd (x / 16).
Proof.
  intros H. rewrite !N.shiftr_div_pow2. change 15 with (N.ones 4). rewrite N.land_ones. change (2 ^ 5) with 32. change (2 ^ 4) with 16.
  split; [reflexivity|]. split; [reflexivity|]. change 1 with (N.ones 1) at 1. rewrite N.land_ones. change (2 ^ 1) with 2.
  rewrite <- N.bit0_mod, N.bit0_odd. destruct (N.odd (x / 16)); reflexivity.
Qed.
Lemma params_back (e : bool) (b : bytes) off ps : bytes_ok b -> (if e then do s <- slice_from b off; params_parse s else Ok []) = Ok ps ->
  if e then Forall param_ok ps /\ skipn off b = flat_map param_octets ps else ps = [].
Proof.
  intros Hb. destruct e; [|intros E; apply Ok_inj in E; congruence]. intros E. apply bind_ok_inv in E. destruct E as (s & Es & E).
  unfold slice_from in Es. destruct (off <=? _)%nat; [|discriminate]. apply Ok_inj in Es. subst s.
  apply params_parse_inv in E; [exact E|]. apply bytes_ok_skipn, Hb.
Qed.
Lemma tft_spelled_iff p f : bytes_ok p -> (tft_parse p = Ok f <-> tft_spelled f p).
Proof.
  intros Hb. unfold tft_parse. split.
  - destruct p as [|x p]; [discriminate|]. cbn [List.length]. replace (S (len p) <? 1)%nat with false by lia. change (idx (x :: p) 0) with (Ok x). cbn [bind].
    pose proof Hb as Hb'. apply Forall_cons_iff in Hb'. destruct Hb' as [Hx Hp]. destruct (first_bits x Hx) as (B1 & B2 & B3). rewrite B1, B2, B3.
    intros E. apply bind_ok_inv in E. destruct E as ([[fs ids] off] & Er & E). apply bind_ok_inv in E. destruct E as (ps & Ep & E). apply Ok_inj in E. subst f.
    apply params_back in Ep; [|exact Hb].
    assert (R : exists body rest, p = body ++ rest /\ off = S (len body) /\ counted (Tft (x / 32) fs ids ps) (N.to_nat (x mod 16)) body).
    { unfold counted. cbn [tf_op tf_filters tf_ids]. change (has_filters (x / 32)) with (with_filters (x / 32)) in Er. destruct (with_filters (x / 32)).
      - apply bind_ok_inv in Er. destruct Er as ([l o] & El & Er). apply Ok_inj in Er. cbn [fst snd] in Er. injection Er as <- <- <-.
        change (x :: p) with ([x] ++ p) in El. change 1%nat with (len [x]) in El. apply filters_parse_back in El; [|exact Hp].
        destruct El as (L & ws & rest & A & B & C). exists (concat ws), rest. split; [exact B|]. split; [exact C|]. eauto.
      - destruct (x / 32 =? 5).
        + destruct (S (len p) <? _)%nat; [discriminate|]. apply bind_ok_inv in Er. destruct Er as (s & Es & Er). apply Ok_inj in Er. injection Er as <- <- <-.
          apply slice_inv in Es. destruct Es as (S1 & S2 & S3 & S4). change (skipn 1 (x :: p)) with p in S3. replace (1 + N.to_nat (x mod 16) - 1)%nat with (N.to_nat (x mod 16)) in * by lia.
          exists s, (skipn (N.to_nat (x mod 16)) p). rewrite S3 at 1. rewrite firstn_skipn. rewrite S4. auto.
        + apply Ok_inj in Er. injection Er as <- <- <-. exists [], p. auto. }
    destruct R as (body & rest & -> & -> & R). exists x, body, rest. split; [reflexivity|]. split; [reflexivity|]. split; [exact R|].
    cbn [tf_params]. change (x :: body ++ rest) with ((x :: body) ++ rest) in Ep. change (S (len body)) with (len (x :: body)) in Ep. rewrite skipn_app, Nat.sub_diag, skipn_all in Ep. exact Ep.
  - intros (x & body & rest & -> & Ho & Hc & Hr). cbn [List.length]. replace (S (len (body ++ rest)) <? 1)%nat with false by lia. change (idx (x :: body ++ rest) 0) with (Ok x). cbn [bind].
    apply Forall_cons_iff in Hb. destruct Hb as [Hx Hp]. destruct (first_bits x Hx) as (B1 & B2 & B3). rewrite B1, B2, B3, <- Ho.
    destruct f as [op fs ids ps]. unfold counted in Hc. cbn [tf_op tf_filters tf_ids tf_params] in *. clear Ho.
    match goal with |- bind ?r _ = _ => assert (R : r = Ok (fs, ids, len (x :: body))) end.
    { change (has_filters op) with (with_filters op). destruct (with_filters op).
      - destruct Hc as (-> & L & ws & W & ->). change (x :: concat ws ++ rest) with ([x] ++ concat ws ++ rest). rewrite <- L. change 1%nat with (len [x]).
        rewrite filters_spelled_parse by assumption. reflexivity.
      - destruct Hc as (-> & -> & L). destruct (op =? 5).
        + replace (S (len (body ++ rest)) <? 1 + N.to_nat (x mod 16))%nat with false by (rewrite app_length; symmetry; apply Nat.ltb_ge; lia).
          change (x :: body ++ rest) with ([x] ++ body ++ rest). rewrite slice_app_eq by (cbn; lia). cbn [bind List.length]. rewrite L. reflexivity.
        + destruct body; [reflexivity|discriminate L]. }
    rewrite R. cbn [bind]. destruct (N.odd (x / 16)).
    + destruct Hr as [Hr ->]. change (x :: body ++ flat_map param_octets ps) with ((x :: body) ++ flat_map param_octets ps). rewrite slice_from_app by reflexivity. cbn [bind].
      unfold params_parse. rewrite params_parse_spec; [reflexivity|assumption|apply params_count].
    + rewrite Hr. reflexivity.
Qed.
