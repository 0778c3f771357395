(** Proofs about V2Tft.v. *)
From Coq Require Import String.
From Verif Require Import Base BaseLemmas Utils UtilsProofs V2IE V2IESpec V2IEProofs V2Codec V2Tft CodecSpec CodecSpec3 V2CodecProofs V2CodecProofs3 V2CodecProofs5.
Open Scope N_scope.
Open Scope list_scope.

(** ** Components *)
Lemma comp_size_spec t : t < 256 -> comp_size t = spec_size t.
Proof.
  intros H. assert (B : forallb (fun t => Nat.eqb (comp_size t) (spec_size t)) (below 256) = true) by (vm_compute; reflexivity).
  rewrite forallb_forall in B. apply Nat.eqb_eq. exact (B t (below_complete 256 t H)).
Qed.
Lemma comp_writes c : writes (comp_mto c) (comp_octets c).
Proof.
  intros b L. unfold comp_octets in *. cbn [List.length] in L. unfold comp_mto.
  replace (len b <? 1 + len (co_contents c))%nat with false by lia.
  rewrite (w_start b) at 1. wr. wr. reflexivity.
Qed.
Lemma comp_mlen_octets c : comp_mlen c = len (comp_octets c).
Proof. reflexivity. Qed.
Lemma comps_total l : comps_len l = len (flat_map comp_octets l).
Proof. induction l as [|c r IH]; [reflexivity|]. cbn [comps_len fold_right flat_map]. rewrite app_length, <- IH. reflexivity. Qed.
Lemma comps_writes l : forall done b, (len done + len (flat_map comp_octets l) <= len b)%nat ->
  comps_mto l (len done) (done ++ skipn (len done) b)
  = Ok ((done ++ flat_map comp_octets l) ++ skipn (len (done ++ flat_map comp_octets l)) b).
Proof.
  induction l as [|c r IH]; intros done b L; cbn [comps_mto flat_map] in *.
  - rewrite app_nil_r. reflexivity.
  - rewrite app_length in L. rewrite w_len by lia. rewrite comp_mlen_octets.
    replace (len b <? len done + len (comp_octets c))%nat with false by lia.
    rewrite (w_on _ _ _ _ _ _ (comp_writes c)) by lia. cbn [bind].
    replace (len done + len (comp_octets c))%nat with (len (done ++ comp_octets c)) by (rewrite app_length; reflexivity).
    rewrite IH by (rewrite app_length; lia). rewrite <- !app_assoc. reflexivity.
Qed.
Lemma comp_parse_spec c rest : comp_ok c -> comp_parse (comp_octets c ++ rest) = Ok c.
Proof.
  destruct c as [t v]. unfold comp_ok, comp_octets. cbn [co_type co_contents]. intros (Ht & Hv & Hl).
  unfold comp_parse. change (idx ((t :: v) ++ rest) 0) with (Ok t). cbn [bind]. rewrite comp_size_spec, <- Hl by assumption.
  rewrite app_length. cbn [List.length]. replace (S (len v) + len rest <? 1)%nat with false by lia.
  replace (S (len v) + len rest <? 1 + len v)%nat with false by lia.
  change ((t :: v) ++ rest) with ([t] ++ v ++ rest). rewrite slice_app_eq by (cbn; lia). reflexivity.
Qed.
Lemma comp_parse_inv b c : bytes_ok b -> comp_parse b = Ok c -> comp_ok c /\ exists rest, b = comp_octets c ++ rest.
Proof.
  intros Hb. unfold comp_parse. destruct b as [|t b]; [discriminate|]. change (idx (t :: b) 0) with (Ok t). cbn [bind].
  apply Forall_cons_iff in Hb. destruct Hb as [Ht Hb].
  destruct (Nat.ltb_spec (len (t :: b)) (1 + comp_size t)) as [L|L]; [discriminate|]. cbn [List.length] in *.
  replace (S (len b) <? 1)%nat with false by lia.
  intros E. apply bind_ok_inv in E. destruct E as (v & Ev & E). apply Ok_inj in E. subst c.
  apply slice_inv in Ev. destruct Ev as (_ & _ & Ev & Lv). change (skipn 1 (t :: b)) with b in Ev.
  replace (1 + comp_size t - 1)%nat with (comp_size t) in * by lia. 
  unfold comp_ok, comp_octets. cbn [co_type co_contents]. split.
  - split; [exact Ht|]. split; [subst v; apply bytes_ok_firstn, Hb|]. rewrite Lv. apply comp_size_spec, Ht.
  - exists (skipn (comp_size t) b). subst v. cbn [app]. rewrite firstn_skipn. reflexivity.
Qed.
Lemma comp_parse_safe b : safe (comp_parse b).
Proof. unfold comp_parse. safe_tac. Qed.
Lemma comps_parse_spec l : Forall comp_ok l -> forall fuel, (List.length l <= fuel)%nat ->
  comps_parse_fuel fuel (flat_map comp_octets l) = Ok l.
Proof.
  induction 1 as [|c r Hc Hr IH]; intros fuel Hf.
  - destruct fuel; reflexivity.
  - destruct fuel as [|fuel]; [cbn in Hf; lia|]. cbn [comps_parse_fuel flat_map]. unfold comp_octets at 1. cbn [app].
    change (co_type c :: co_contents c ++ flat_map comp_octets r) with (comp_octets c ++ flat_map comp_octets r).
    rewrite comp_parse_spec by assumption. cbn [bind]. rewrite slice_from_app by reflexivity. cbn [bind].
    rewrite IH by (cbn in Hf; lia). reflexivity.
Qed.
Lemma comps_count l : (List.length l <= len (flat_map comp_octets l))%nat.
Proof. induction l as [|c r IH]; [cbn; lia|]. cbn [flat_map]. rewrite app_length. cbn. lia. Qed.
Lemma comps_parse_all l : Forall comp_ok l -> comps_parse (flat_map comp_octets l) = Ok l.
Proof. intros H. apply comps_parse_spec; [exact H|apply comps_count]. Qed.
Lemma comps_parse_inv fuel : forall b l, bytes_ok b -> comps_parse_fuel fuel b = Ok l ->
  Forall comp_ok l /\ b = flat_map comp_octets l.
Proof.
  induction fuel as [|fuel IH]; intros b l Hb E; cbn [comps_parse_fuel] in E; destruct b as [|x b].
  - apply Ok_inj in E. subst. split; [constructor|reflexivity].
  - discriminate.
  - apply Ok_inj in E. subst. split; [constructor|reflexivity].
  - apply bind_ok_inv in E. destruct E as (c & Ec & E). apply bind_ok_inv in E. destruct E as (b' & Eb & E).
    apply bind_ok_inv in E. destruct E as (r & Er & E). apply Ok_inj in E. subst l.
    destruct (comp_parse_inv _ c Hb Ec) as (Hc & rest & Ex). rewrite Ex in Eb, Hb.
    rewrite slice_from_app in Eb by reflexivity. apply Ok_inj in Eb. subst b'.
    apply bytes_ok_app_inv in Hb. destruct (IH rest r (proj2 Hb) Er) as [Hr Hl].
    split; [constructor; assumption|]. cbn [flat_map]. rewrite Ex, Hl. reflexivity.
Qed.
Lemma comps_parse_fuel_safe fuel : forall b, (len b <= fuel)%nat -> safe (comps_parse_fuel fuel b).
Proof.
  induction fuel as [|fuel IH]; intros b L; cbn [comps_parse_fuel]; destruct b as [|x b]; try discriminate; [cbn in L; lia|].
  apply safe_bind; [apply comp_parse_safe|]. intros c Ec.
  assert (Lc : (1 <= comp_mlen c <= len (x :: b))%nat).
  { split; [unfold comp_mlen; lia|]. revert Ec. unfold comp_parse. change (idx (x :: b) 0) with (Ok x). cbn [bind].
    destruct (len (x :: b) <? 1)%nat; [discriminate|].
    destruct (Nat.ltb_spec (len (x :: b)) (1 + comp_size x)); [discriminate|].
    intros Ec. apply bind_ok_inv in Ec. destruct Ec as (v & Ev & Ec). apply Ok_inj in Ec. subst c. apply slice_len in Ev.
    unfold comp_mlen. cbn [co_contents]. lia. }
  rewrite slice_from_ok by lia. cbn [bind]. apply safe_bind; [|discriminate]. apply IH.
  rewrite skipn_length. cbn [List.length] in *. lia.
Qed.

(** ** Packet filters *)
Lemma filter_writes f : filter_ok f -> writes (filter_mto f) (filter_octets f).
Proof.
  destruct f as [d i p n cs]. unfold filter_ok. cbn [pf_dir pf_id pf_prec pf_length pf_comps].
  intros (Hd & Hi & Hp & Hn & Hc & Hl) b L. unfold filter_octets in *. cbn [pf_dir pf_id pf_prec pf_length pf_comps app] in *.
  cbn [List.length] in L. unfold filter_mto. cbn [pf_dir pf_id pf_prec pf_length pf_comps].
  replace (len b <? 3)%nat with false by lia.
  rewrite (w_start b) at 1. wr. wr. wr.
  match goal with |- comps_mto cs 3 (?x ++ _) = _ => change 3%nat with (len x) at 1 end.
  rewrite comps_writes by (cbn; lia). cbn [app].
  assert (E : N.lor (u8 (N.shiftl (N.land d 3) 4)) (N.land i 15) = 16 * d + i).
  { assert (B : forallb (fun d => forallb (fun i => N.lor (u8 (N.shiftl (N.land d 3) 4)) (N.land i 15) =? 16 * d + i) (below 16)) (below 4) = true) by (vm_compute; reflexivity).
    rewrite forallb_forall in B. specialize (B d (below_complete 4 d Hd)). cbv beta in B. rewrite forallb_forall in B.
    apply N.eqb_eq. exact (B i (below_complete 16 i Hi)). }
  rewrite E. reflexivity.
Qed.
Lemma filter_mlen_octets f : filter_mlen f = len (filter_octets f).
Proof. unfold filter_mlen, filter_octets. rewrite comps_total, app_length. reflexivity. Qed.
Lemma filter_first d i : d < 4 -> i < 16 -> N.land (N.shiftr (16 * d + i) 4) 3 = d /\ N.land (16 * d + i) 15 = i.
Proof.
  intros Hd Hi. assert (B : forallb (fun d => forallb (fun i => (N.land (N.shiftr (16 * d + i) 4) 3 =? d) && (N.land (16 * d + i) 15 =? i)) (below 16)) (below 4) = true) by (vm_compute; reflexivity).
  rewrite forallb_forall in B. specialize (B d (below_complete 4 d Hd)). cbv beta in B. rewrite forallb_forall in B.
  specialize (B i (below_complete 16 i Hi)). cbv beta in B. apply andb_prop in B. rewrite !N.eqb_eq in B. exact B.
Qed.
Lemma filter_parse_spec f rest : filter_ok f -> filter_parse (filter_octets f ++ rest) = Ok f.
Proof.
  destruct f as [d i p n cs]. unfold filter_ok, filter_octets. cbn [pf_dir pf_id pf_prec pf_length pf_comps].
  intros (Hd & Hi & Hp & Hn & Hc & Hl). unfold filter_parse.
  set (b := ([16 * d + i; p; n] ++ flat_map comp_octets cs) ++ rest).
  assert (Lb : len b = (3 + len (flat_map comp_octets cs) + len rest)%nat) by (unfold b; len_tac).
  rewrite Lb. replace (3 + len (flat_map comp_octets cs) + len rest <? 3)%nat with false by lia.
  change (idx b 0) with (Ok (16 * d + i)). change (idx b 1) with (Ok p). change (idx b 2) with (Ok n). cbn [bind]. rewrite Hl.
  replace (3 + len (flat_map comp_octets cs) + len rest <? 3 + len (flat_map comp_octets cs))%nat with false by lia.
  replace b with ([16 * d + i; p; n] ++ flat_map comp_octets cs ++ rest) by (unfold b; rewrite <- app_assoc; reflexivity).
  rewrite slice_app_eq by (cbn; lia). cbn [bind]. rewrite comps_parse_all by assumption. cbn [bind].
  destruct (filter_first d i Hd Hi) as [-> ->]. reflexivity.
Qed.
(** [spare] are the two spare bits of the first octet, as a number below 4 *)
Definition filter_octets_sp (spare : N) (f : pfilter) : bytes :=
  [64 * spare + 16 * pf_dir f + pf_id f; pf_prec f; pf_length f] ++ flat_map comp_octets (pf_comps f).
Lemma filter_parse_inv b f : bytes_ok b -> filter_parse b = Ok f ->
  filter_ok f /\ exists spare rest, spare < 4 /\ b = filter_octets_sp spare f ++ rest.
Proof.
  intros Hb. unfold filter_parse. do 3 (destruct b as [|? b]; [run; discriminate|]). bytes_split.
  rename n into x, n0 into p, n1 into n.
  cbn [List.length]. replace (S (S (S (len b))) <? 3)%nat with false by lia.
  change (idx (x :: p :: n :: b) 0) with (Ok x). change (idx (x :: p :: n :: b) 1) with (Ok p).
  change (idx (x :: p :: n :: b) 2) with (Ok n). cbn [bind].
  destruct (Nat.ltb_spec (S (S (S (len b)))) (3 + N.to_nat n)) as [L|L]; [discriminate|].
  intros E. apply bind_ok_inv in E. destruct E as (s & Es & E). apply bind_ok_inv in E. destruct E as (cs & Ec & E).
  apply Ok_inj in E. subst f. apply slice_inv in Es. destruct Es as (_ & _ & Es & Ls).
  change (skipn 3 (x :: p :: n :: b)) with b in Es. replace (3 + N.to_nat n - 3)%nat with (N.to_nat n) in * by lia.
  assert (Hs : bytes_ok s) by (subst s; apply bytes_ok_firstn; assumption).
  destruct (comps_parse_inv _ _ _ Hs Ec) as [Hc Hl].
  assert (X : x = 64 * (x / 64) + 16 * N.land (N.shiftr x 4) 3 + N.land x 15 /\ N.land (N.shiftr x 4) 3 < 4 /\ N.land x 15 < 16 /\ x / 64 < 4).
  { assert (B : forallb (fun x => (x =? 64 * (x / 64) + 16 * N.land (N.shiftr x 4) 3 + N.land x 15) && ((N.land (N.shiftr x 4) 3 <? 4) && ((N.land x 15 <? 16) && (x / 64 <? 4)))) (below 256) = true) by (vm_compute; reflexivity).
    rewrite forallb_forall in B. specialize (B x (below_complete 256 x ltac:(assumption))). cbv beta in B.
    rewrite !andb_true_iff, N.eqb_eq, !N.ltb_lt in B. exact B. }
  destruct X as (X & D & I & S4).
  unfold filter_ok, filter_octets_sp. cbn [pf_dir pf_id pf_prec pf_length pf_comps]. split.
  - repeat split; try assumption. rewrite <- Hl, Ls. reflexivity.
  - exists (x / 64), (skipn (N.to_nat n) b). split; [exact S4|]. rewrite <- X, <- Hl, Es. cbn [app]. rewrite firstn_skipn. reflexivity.
Qed.
Lemma filter_parse_safe b : safe (filter_parse b).
Proof.
  unfold filter_parse. destruct (Nat.ltb_spec (len b) 3); [discriminate|].
  apply safe_bind; [apply safe_idx; lia|]. intros x _. apply safe_bind; [apply safe_idx; lia|]. intros p _.
  apply safe_bind; [apply safe_idx; lia|]. intros n _.
  destruct (Nat.ltb_spec (len b) (3 + N.to_nat n)); [discriminate|].
  apply safe_bind; [apply safe_slice; lia|]. intros s _. apply safe_bind; [apply comps_parse_fuel_safe; lia|]. discriminate.
Qed.

(** ** Parameters *)
Lemma param_writes p : writes (param_mto p) (param_octets p).
Proof.
  destruct p as [i n v]. intros b L. unfold param_octets in *. cbn [pm_id pm_length pm_contents] in *. rewrite app_length in L. cbn [List.length] in L.
  unfold param_mto. cbn [pm_id pm_length pm_contents]. replace (len b <? 2)%nat with false by lia.
  replace (len b <? 2 + len v)%nat with false by lia. rewrite (w_start b) at 1. wr. wr. wr. reflexivity.
Qed.
Lemma param_mlen_octets p : param_mlen p = len (param_octets p).
Proof. reflexivity. Qed.
Lemma params_total l : params_len l = len (flat_map param_octets l).
Proof. induction l as [|c r IH]; [reflexivity|]. cbn [params_len fold_right flat_map]. rewrite app_length, <- IH. reflexivity. Qed.
Lemma params_writes l : forall done b, (len done + len (flat_map param_octets l) <= len b)%nat ->
  params_mto l (len done) (done ++ skipn (len done) b)
  = Ok ((done ++ flat_map param_octets l) ++ skipn (len (done ++ flat_map param_octets l)) b).
Proof.
  induction l as [|c r IH]; intros done b L; cbn [params_mto flat_map] in *.
  - rewrite app_nil_r. reflexivity.
  - rewrite app_length in L. rewrite (on_slice_from_writes _ _ _ _ (param_writes c)) by lia. cbn [bind].
    replace (len done + param_mlen c)%nat with (len (done ++ param_octets c)) by (rewrite app_length; reflexivity).
    rewrite IH by (rewrite app_length; lia). rewrite <- !app_assoc. reflexivity.
Qed.
Lemma param_parse_spec p rest : param_ok p -> param_parse (param_octets p ++ rest) = Ok p.
Proof.
  destruct p as [i n v]. unfold param_ok, param_octets. cbn [pm_id pm_length pm_contents]. intros (Hi & Hn & Hv & Hl).
  unfold param_parse. set (b := ([i; n] ++ v) ++ rest).
  assert (Lb : len b = (2 + len v + len rest)%nat) by (unfold b; len_tac). rewrite Lb.
  replace (2 + len v + len rest <? 2)%nat with false by lia.
  change (idx b 0) with (Ok i). change (idx b 1) with (Ok n). cbn [bind]. rewrite Hl.
  replace (2 + len v + len rest <? 2 + len v)%nat with false by lia.
  change b with ([i; n] ++ v ++ rest). rewrite slice_app_eq by (cbn; lia). reflexivity.
Qed.
Lemma param_parse_inv b p : bytes_ok b -> param_parse b = Ok p -> param_ok p /\ exists rest, b = param_octets p ++ rest.
Proof.
  intros Hb. unfold param_parse. do 2 (destruct b as [|? b]; [run; discriminate|]). bytes_split.
  cbn [List.length]. replace (S (S (len b)) <? 2)%nat with false by lia.
  change (idx (n :: n0 :: b) 0) with (Ok n). change (idx (n :: n0 :: b) 1) with (Ok n0). cbn [bind].
  destruct (Nat.ltb_spec (S (S (len b))) (2 + N.to_nat n0)) as [L|L]; [discriminate|].
  intros E. apply bind_ok_inv in E. destruct E as (v & Ev & E). apply Ok_inj in E. subst p.
  apply slice_inv in Ev. destruct Ev as (_ & _ & Ev & Lv). change (skipn 2 (n :: n0 :: b)) with b in Ev.
  replace (2 + N.to_nat n0 - 2)%nat with (N.to_nat n0) in * by lia.
  unfold param_ok, param_octets. cbn [pm_id pm_length pm_contents]. split.
  - split; [assumption|]. split; [assumption|]. split; [subst v; apply bytes_ok_firstn; assumption|lia].
  - exists (skipn (N.to_nat n0) b). rewrite Ev. cbn [app]. rewrite firstn_skipn. reflexivity.
Qed.
Lemma param_parse_safe b : safe (param_parse b).
Proof. unfold param_parse. safe_tac. Qed.
Lemma params_parse_spec l : Forall param_ok l -> forall fuel, (List.length l <= fuel)%nat ->
  params_parse_fuel fuel (flat_map param_octets l) = Ok l.
Proof.
  induction 1 as [|c r Hc Hr IH]; intros fuel Hf.
  - destruct fuel; reflexivity.
  - destruct fuel as [|fuel]; [cbn in Hf; lia|]. cbn [params_parse_fuel flat_map]. unfold param_octets at 1. cbn [app].
    change (pm_id c :: pm_length c :: pm_contents c ++ flat_map param_octets r) with (param_octets c ++ flat_map param_octets r).
    rewrite param_parse_spec by assumption. cbn [bind]. rewrite slice_from_app by reflexivity. cbn [bind].
    rewrite IH by (cbn in Hf; lia). reflexivity.
Qed.
Lemma params_count l : (List.length l <= len (flat_map param_octets l))%nat.
Proof. induction l as [|c r IH]; [cbn; lia|]. cbn [flat_map]. rewrite app_length. cbn. lia. Qed.
Lemma params_parse_inv fuel : forall b l, bytes_ok b -> params_parse_fuel fuel b = Ok l ->
  Forall param_ok l /\ b = flat_map param_octets l.
Proof.
  induction fuel as [|fuel IH]; intros b l Hb E; cbn [params_parse_fuel] in E; destruct b as [|x b].
  - apply Ok_inj in E. subst. split; [constructor|reflexivity].
  - discriminate.
  - apply Ok_inj in E. subst. split; [constructor|reflexivity].
  - apply bind_ok_inv in E. destruct E as (c & Ec & E). apply bind_ok_inv in E. destruct E as (b' & Eb & E).
    apply bind_ok_inv in E. destruct E as (r & Er & E). apply Ok_inj in E. subst l.
    destruct (param_parse_inv _ c Hb Ec) as (Hc & rest & Ex). rewrite Ex in Eb, Hb.
    rewrite slice_from_app in Eb by reflexivity. apply Ok_inj in Eb. subst b'.
    apply bytes_ok_app_inv in Hb. destruct (IH rest r (proj2 Hb) Er) as [Hr Hl].
    split; [constructor; assumption|]. cbn [flat_map]. rewrite Ex, Hl. reflexivity.
Qed.
Lemma param_parse_len b p : param_parse b = Ok p -> (2 <= param_mlen p <= len b)%nat.
Proof.
  unfold param_parse. destruct (Nat.ltb_spec (len b) 2); [discriminate|]. intros E.
  apply bind_ok_inv in E. destruct E as (i & _ & E). apply bind_ok_inv in E. destruct E as (n & _ & E).
  destruct (Nat.ltb_spec (len b) (2 + N.to_nat n)); [discriminate|].
  apply bind_ok_inv in E. destruct E as (v & Ev & E). apply Ok_inj in E. subst p. apply slice_len in Ev.
  unfold param_mlen. cbn [pm_contents]. lia.
Qed.
Lemma params_parse_fuel_safe fuel : forall b, (len b <= fuel)%nat -> safe (params_parse_fuel fuel b).
Proof.
  induction fuel as [|fuel IH]; intros b L; cbn [params_parse_fuel]; destruct b as [|x b]; try discriminate; [cbn in L; lia|].
  apply safe_bind; [apply param_parse_safe|]. intros c Ec. apply param_parse_len in Ec.
  rewrite slice_from_ok by lia. cbn [bind]. apply safe_bind; [|discriminate]. apply IH.
  rewrite skipn_length. cbn [List.length] in *. lia.
Qed.

(** ** The template *)
Lemma filters_total l : filters_len l = len (flat_map filter_octets l).
Proof.
  induction l as [|c r IH]; [reflexivity|]. cbn [filters_len fold_right flat_map]. rewrite app_length, <- IH, filter_mlen_octets. reflexivity.
Qed.
Lemma filters_writes l : Forall filter_ok l -> forall done b, (len done + len (flat_map filter_octets l) <= len b)%nat ->
  filters_mto l (len done) (done ++ skipn (len done) b)
  = Ok ((done ++ flat_map filter_octets l) ++ skipn (len (done ++ flat_map filter_octets l)) b, len (done ++ flat_map filter_octets l)).
Proof.
  induction 1 as [|c r Hc Hr IH]; intros done b L; cbn [filters_mto flat_map] in *.
  - rewrite app_nil_r. reflexivity.
  - rewrite app_length in L. rewrite (on_slice_from_writes _ _ _ _ (filter_writes c Hc)) by lia. cbn [bind].
    replace (len done + filter_mlen c)%nat with (len (done ++ filter_octets c)) by (rewrite app_length, filter_mlen_octets; reflexivity).
    rewrite IH by (rewrite app_length; lia). rewrite <- !app_assoc. reflexivity.
Qed.
Lemma filters_parse_spec l : Forall filter_ok l -> forall done rest,
  filters_parse (List.length l) (done ++ flat_map filter_octets l ++ rest) (len done)
  = Ok (l, len (done ++ flat_map filter_octets l)).
Proof.
  induction 1 as [|c r Hc Hr IH]; intros done rest; cbn [filters_parse flat_map List.length].
  - rewrite app_nil_r. reflexivity.
  - rewrite slice_from_app by reflexivity. cbn [bind]. rewrite <- app_assoc, filter_parse_spec by assumption. cbn [bind].
    replace (len done + filter_mlen c)%nat with (len (done ++ filter_octets c)) by (rewrite app_length, filter_mlen_octets; reflexivity).
    rewrite (app_assoc done). rewrite IH. cbn [bind fst snd]. rewrite <- app_assoc. reflexivity.
Qed.
Lemma octet_bits' op e n : op < 8 -> e < 2 -> n < 16 ->
  N.lor (N.lor (u8 (N.shiftl (N.land op 7) 5)) (u8 (N.shiftl (N.land e 1) 4))) (N.land n 15) = first_octet op e n /\
  N.shiftr (first_octet op e n) 5 = op /\ N.land (N.shiftr (first_octet op e n) 4) 1 = e /\ N.land (first_octet op e n) 15 = n.
Proof.
  intros Ho He Hn.
  assert (B : forallb (fun op => forallb (fun e => forallb (fun n =>
    (N.lor (N.lor (u8 (N.shiftl (N.land op 7) 5)) (u8 (N.shiftl (N.land e 1) 4))) (N.land n 15) =? first_octet op e n) &&
    ((N.shiftr (first_octet op e n) 5 =? op) && ((N.land (N.shiftr (first_octet op e n) 4) 1 =? e) && (N.land (first_octet op e n) 15 =? n))))
    (below 16)) (below 2)) (below 8) = true) by (vm_compute; reflexivity).
  rewrite forallb_forall in B. specialize (B op (below_complete 8 op Ho)). cbv beta in B.
  rewrite forallb_forall in B. specialize (B e (below_complete 2 e He)). cbv beta in B.
  rewrite forallb_forall in B. specialize (B n (below_complete 16 n Hn)). cbv beta in B.
  rewrite !andb_true_iff, !N.eqb_eq in B. exact B.
Qed.
(** what the code can encode: no parameters, or an odd number of them *)
Definition odd_params (f : tft) : Prop := tf_params f = [] \/ Nat.odd (List.length (tf_params f)) = true.
Lemma odd_bit (f : tft) : odd_params f -> N.land (N.of_nat (List.length (tf_params f))) 1 = e_bit f /\ e_bit f < 2.
Proof.
  unfold odd_params, e_bit. intros H. assert (E : e_bit f < 2) by (unfold e_bit; destruct (tf_params f); lia).
  split; [|exact E]. destruct H as [->|H]; [reflexivity|].
  destruct (tf_params f) as [|p r] eqn:Ep; [discriminate|].
  change 1 with (N.ones 1). rewrite N.land_ones. change (2 ^ 1) with 2. change (N.ones 1) with 1.
  apply Nat.odd_spec in H. destruct H as [k H]. rewrite H. lia.
Qed.
Lemma body_cases f : body_ok f ->
  (with_filters (tf_op f) = true /\ tf_ids f = [] /\ (tf_op f =? 5) = false) \/
  (tf_op f = 5 /\ tf_filters f = []) \/
  (with_filters (tf_op f) = false /\ (tf_op f =? 5) = false /\ tf_filters f = [] /\ tf_ids f = []).
Proof.
  intros (_ & _ & _ & _ & _ & F & I). destruct (with_filters (tf_op f)) eqn:W.
  - left. assert (tf_op f <> 5) by (intros E; rewrite E in W; discriminate).
    split; [reflexivity|]. split; [auto|]. lia.
  - destruct (N.eqb_spec (tf_op f) 5) as [E|E]; [right; left; auto|right; right; auto].
Qed.
Lemma tft_marshal_spec f : body_ok f -> odd_params f -> tft_marshal f = Ok (tft_octets f).
Proof.
  intros Hb Ho. pose proof (body_cases f Hb) as C. destruct Hb as (Hop & Hf & Hi & Hp & Hc & _).
  destruct (odd_bit f Ho) as [Ee He].
  set (n := N.of_nat (body_count f)). assert (Hn : n < 16) by (unfold n; lia).
  destruct (octet_bits' (tf_op f) (e_bit f) n Hop He Hn) as (B & _).
  assert (Ee2 : N.land (e_bit f) 1 = e_bit f) by (unfold e_bit; destruct (tf_params f); reflexivity).
  rewrite Ee2 in B.
  unfold tft_marshal, tft_mto, tft_mlen. rewrite filters_total, params_total.
  set (m := (1 + len (flat_map filter_octets (tf_filters f)) + len (tf_ids f) + len (flat_map param_octets (tf_params f)))%nat).
  rewrite len_zeros. replace (m <? 1)%nat with false by (unfold m; lia). cbv zeta. rewrite Ee.
  replace (N.of_nat (if tf_op f =? 5 then len (tf_ids f) else List.length (tf_filters f))) with n.
  2:{ unfold n, body_count. destruct C as [(W & I & E5)|[(E & F)|(W & E5 & F & I)]].
      - rewrite E5, I. cbn [List.length]. f_equal. lia.
      - rewrite E, F. reflexivity.
      - rewrite E5, F, I. reflexivity. }
  rewrite B. rewrite (w_start (zeros m)). rewrite w_set by (rewrite ?len_zeros; unfold m; cbn; lia). cbn [bind].
  unfold tft_octets, body_octets, params_octets. fold n. set (x := first_octet (tf_op f) (e_bit f) n).
  change ([x] ++ skipn (len [x]) (zeros m)) with (x :: skipn 1 (zeros m)).
  change (has_filters (tf_op f)) with (with_filters (tf_op f)).
  change (x :: skipn 1 (zeros m)) with ([x] ++ skipn (len [x]) (zeros m)).
  destruct C as [(W & I & E5)|[(E & F)|(W & E5 & F & I)]].
  - rewrite W. change (filters_mto (tf_filters f) 1 ?b) with (filters_mto (tf_filters f) (len [x]) b). rewrite filters_writes by (try assumption; rewrite len_zeros; unfold m; cbn; lia).
    cbn [bind fst snd]. rewrite params_writes by (rewrite app_length, len_zeros; unfold m; cbn; lia).
    rewrite w_end by (rewrite !app_length; unfold m; rewrite I; cbn; lia). rewrite I, app_nil_r, <- app_assoc. reflexivity.
  - rewrite E. change (with_filters 5) with false. change (5 =? 5) with true. cbv iota.
    rewrite w_copy by (rewrite ?len_zeros; unfold m; cbn; lia). cbn [bind fst snd].
    replace (1 + len (tf_ids f))%nat with (len ([x] ++ tf_ids f)) by reflexivity.
    rewrite params_writes by (rewrite app_length, len_zeros; unfold m; cbn; lia).
    rewrite w_end by (rewrite !app_length; unfold m; rewrite F; cbn; lia). rewrite F. cbn [flat_map app]. reflexivity.
  - rewrite W, E5. cbn [bind fst snd]. change (params_mto (tf_params f) 1 ?b) with (params_mto (tf_params f) (len [x]) b).
    rewrite params_writes by (rewrite len_zeros; unfold m; cbn; lia).
    rewrite w_end by (rewrite !app_length; unfold m; rewrite F, I; cbn; lia). rewrite F, I. reflexivity.
Qed.
(** The rest is ignored unless parameters are announced, in which case they reach to the end. *)
Lemma tft_parse_spec f rest : body_ok f -> (tf_params f <> [] -> rest = []) -> tft_parse (tft_octets f ++ rest) = Ok f.
Proof.
  intros Hb Hrest. pose proof (body_cases f Hb) as C. destruct Hb as (Hop & Hf & Hi & Hp & Hc & _).
  assert (He : e_bit f < 2) by (unfold e_bit; destruct (tf_params f); lia).
  set (n := N.of_nat (body_count f)). assert (Hn : n < 16) by (unfold n; lia).
  destruct (octet_bits' (tf_op f) (e_bit f) n Hop He Hn) as (_ & B1 & B2 & B3).
  unfold tft_octets. fold n. set (x := first_octet (tf_op f) (e_bit f) n) in *.
  set (b := ([x] ++ body_octets f ++ params_octets f) ++ rest).
  assert (Eb : b = [x] ++ body_octets f ++ (params_octets f ++ rest)) by (unfold b; rewrite <- !app_assoc; reflexivity).
  unfold tft_parse. replace (len b <? 1)%nat with false by (rewrite Eb; cbn; lia).
  replace (idx b 0) with (Ok x) by (rewrite Eb; reflexivity). cbn [bind]. rewrite B1, B2, B3.
  change (has_filters (tf_op f)) with (with_filters (tf_op f)).
  assert (R : (if with_filters (tf_op f) then do r <- filters_parse (N.to_nat n) b 1; Ok (fst r, [], snd r)
     else if tf_op f =? 5 then
             if (len b <? 1 + N.to_nat n)%nat then Err EUnexpectedEOF else
             do ids <- slice b 1 (1 + N.to_nat n); Ok ([], ids, (1 + N.to_nat n)%nat)
           else Ok ([], [], 1%nat)) = Ok (tf_filters f, tf_ids f, len ([x] ++ body_octets f))).
  { unfold n. rewrite Nat2N.id. unfold body_count, body_octets in *. rewrite Eb.
    destruct C as [(W & I & E5)|[(E & F)|(W & E5 & F & I)]].
    - rewrite W, I, app_nil_r. cbn [List.length]. rewrite Nat.add_0_r. change (filters_parse ?n ?b 1) with (filters_parse n b (len [x])).
      rewrite filters_parse_spec by assumption. reflexivity.
    - rewrite E, F. change (with_filters 5) with false. change (5 =? 5) with true. cbn [List.length Nat.add flat_map app].
      replace (S (len (tf_ids f ++ params_octets f ++ rest)) <? S (len (tf_ids f)))%nat with false by (rewrite app_length; symmetry; apply Nat.ltb_ge; lia).
      change (x :: tf_ids f ++ params_octets f ++ rest) with ([x] ++ tf_ids f ++ (params_octets f ++ rest)).
      rewrite slice_app_eq by (cbn; lia). reflexivity.
    - rewrite W, E5, F, I. reflexivity. }
  rewrite R. cbn [bind].
  replace b with (([x] ++ body_octets f) ++ (params_octets f ++ rest)) by (rewrite Eb; reflexivity).
  destruct f as [op fs ids ps]. unfold e_bit in B2 |- *. cbn [tf_params tf_op tf_filters tf_ids] in *.
  destruct ps as [|p r].
  - change (e_bit (Tft op fs ids []) =? 1) with false. cbv iota. cbn [bind]. reflexivity.
  - change (e_bit (Tft op fs ids (p :: r)) =? 1) with true. cbv iota. rewrite slice_from_app by reflexivity. cbn [bind].
    rewrite (Hrest ltac:(discriminate)), app_nil_r. unfold params_octets, params_parse. cbn [tf_params].
    rewrite params_parse_spec; [reflexivity|assumption|apply params_count].
Qed.

(** ** Never a panic *)
Lemma filter_parse_len b f : filter_parse b = Ok f -> bytes_ok b -> (filter_mlen f <= len b)%nat.
Proof.
  intros E Hb. destruct (filter_parse_inv b f Hb E) as (_ & sp & rest & _ & ->). rewrite filter_mlen_octets, app_length.
  unfold filter_octets_sp, filter_octets. rewrite !app_length. cbn. lia.
Qed.
Lemma filters_parse_safe n : forall b off, bytes_ok b -> (off <= len b)%nat ->
  safe (filters_parse n b off) /\ forall l o, filters_parse n b off = Ok (l, o) -> (o <= len b)%nat.
Proof.
  induction n as [|n IH]; intros b off Hb Ho; cbn [filters_parse].
  - split; [discriminate|]. intros l o E. apply Ok_inj in E. injection E as _ <-. exact Ho.
  - rewrite slice_from_ok by lia. cbn [bind]. pose proof (bytes_ok_skipn off b Hb) as Hs.
    destruct (filter_parse (skipn off b)) as [f|e|] eqn:Ef; cbn [bind].
    + pose proof (filter_parse_len _ _ Ef Hs) as L. rewrite skipn_length in L.
      destruct (IH b (off + filter_mlen f)%nat Hb ltac:(lia)) as [S O].
      destruct (filters_parse n b (off + filter_mlen f)) as [[l o]|e|] eqn:E; cbn [bind fst snd].
      * split; [discriminate|]. intros l' o' E'. apply Ok_inj in E'. injection E' as _ <-. exact (O l o eq_refl).
      * split; [discriminate|discriminate].
      * exfalso. apply S. reflexivity.
    + split; discriminate.
    + exfalso. exact (filter_parse_safe _ Ef).
Qed.
Lemma tft_parse_safe b : bytes_ok b -> tft_parse b <> Panic.
Proof.
  intros Hb. change (safe (tft_parse b)). unfold tft_parse. destruct (Nat.ltb_spec (len b) 1); [discriminate|].
  apply safe_bind; [apply safe_idx; lia|]. intros x _. cbv zeta.
  destruct (filters_parse_safe (N.to_nat (N.land x 15)) b 1 Hb ltac:(lia)) as [S O].
  match goal with |- safe (bind ?r _) => assert (R : safe r /\ forall fs ids off, r = Ok (fs, ids, off) -> (off <= len b)%nat) end.
  { destruct (has_filters (N.shiftr x 5)).
    - destruct (filters_parse (N.to_nat (N.land x 15)) b 1) as [[l o]|e|]; cbn [bind fst snd]; [|split; discriminate|exfalso; apply S; reflexivity].
      split; [discriminate|]. intros fs ids off E. apply Ok_inj in E. injection E as _ _ <-. exact (O l o eq_refl).
    - destruct (N.shiftr x 5 =? 5); [|split; [discriminate|intros fs ids off E; apply Ok_inj in E; injection E as _ _ <-; lia]].
      destruct (Nat.ltb_spec (len b) (1 + N.to_nat (N.land x 15))); [split; discriminate|].
      rewrite slice_ok by lia. cbn [bind]. split; [discriminate|]. intros fs ids off E. apply Ok_inj in E. injection E as _ _ <-. lia. }
  destruct R as [R1 R2]. apply safe_bind; [exact R1|]. intros [[fs ids] off] E. apply R2 in E.
  apply safe_bind; [|discriminate]. destruct (N.land (N.shiftr x 4) 1 =? 1); [|discriminate].
  rewrite slice_from_ok by lia. cbn [bind]. apply params_parse_fuel_safe. lia.
Qed.

(** ** What an accepted template looks like *)
Lemma filters_parse_inv n : forall b off l o, bytes_ok b -> (off <= len b)%nat -> filters_parse n b off = Ok (l, o) ->
  Forall filter_ok l /\ List.length l = n /\ (off <= o <= len b)%nat.
Proof.
  induction n as [|n IH]; intros b off l o Hb Ho E; cbn [filters_parse] in E.
  - apply Ok_inj in E. injection E as <- <-. split; [constructor|]. split; [reflexivity|lia].
  - rewrite slice_from_ok in E by lia. cbn [bind] in E. pose proof (bytes_ok_skipn off b Hb) as Hs.
    apply bind_ok_inv in E. destruct E as (f & Ef & E). apply bind_ok_inv in E. destruct E as ([l' o'] & E' & E).
    apply Ok_inj in E. cbn [fst snd] in E. injection E as <- <-.
    pose proof (filter_parse_len _ _ Ef Hs) as L. rewrite skipn_length in L.
    destruct (IH b (off + filter_mlen f)%nat l' o' Hb ltac:(lia) E') as (A & B & C).
    split; [constructor; [exact (proj1 (filter_parse_inv _ _ Hs Ef))|exact A]|]. split; [cbn; lia|lia].
Qed.
Lemma tft_parse_ok b f : bytes_ok b -> tft_parse b = Ok f -> body_ok f.
Proof.
  intros Hb. unfold tft_parse. destruct (Nat.ltb_spec (len b) 1) as [L|L]; [discriminate|]. intros E.
  apply bind_ok_inv in E. destruct E as (x & Ex & E). cbv zeta in E.
  assert (Hx : x < 256) by (destruct b as [|y b]; [cbn in L; lia|]; apply Ok_inj in Ex; subst y; apply Forall_cons_iff in Hb; apply Hb).
  assert (X : N.shiftr x 5 < 8 /\ N.land x 15 < 16).
  { assert (B : forallb (fun x => (N.shiftr x 5 <? 8) && (N.land x 15 <? 16)) (below 256) = true) by (vm_compute; reflexivity).
    rewrite forallb_forall in B. specialize (B x (below_complete 256 x Hx)). cbv beta in B. rewrite andb_true_iff, !N.ltb_lt in B. exact B. }
  destruct X as [X1 X2]. apply bind_ok_inv in E. destruct E as ([[fs ids] off] & Er & E).
  apply bind_ok_inv in E. destruct E as (ps & Ep & E). apply Ok_inj in E. subst f.
  set (op := N.shiftr x 5) in *. change (has_filters op) with (with_filters op) in Er.
  assert (R : Forall filter_ok fs /\ bytes_ok ids /\ (List.length fs + len ids < 16)%nat /\ (off <= len b)%nat /\
              (with_filters op = false -> fs = []) /\ (op <> 5 -> ids = [])).
  { destruct (with_filters op) eqn:W.
    - apply bind_ok_inv in Er. destruct Er as ([l o] & El & Er). apply Ok_inj in Er. cbn [fst snd] in Er. injection Er as <- <- <-.
      destruct (filters_parse_inv _ b 1%nat l o Hb ltac:(lia) El) as (A & B & C). rewrite B.
      split; [exact A|]. split; [constructor|]. split; [cbn; lia|]. split; [lia|]. split; [discriminate|reflexivity].
    - destruct (N.eqb_spec op 5) as [E5|E5].
      + destruct (len b <? 1 + N.to_nat (N.land x 15))%nat; [discriminate|].
        apply bind_ok_inv in Er. destruct Er as (s & Es & Er). apply Ok_inj in Er. injection Er as <- <- <-.
        apply slice_inv in Es. destruct Es as (S1 & S2 & S3 & S4).
        split; [constructor|]. split; [rewrite S3; apply bytes_ok_firstn, bytes_ok_skipn, Hb|].
        split; [cbn; lia|]. split; [lia|]. split; [reflexivity|congruence].
      + apply Ok_inj in Er. injection Er as <- <- <-. split; [constructor|]. split; [constructor|].
        split; [cbn; lia|]. split; [lia|]. split; reflexivity. }
  destruct R as (R1 & R2 & R3 & R4 & R5 & R6).
  unfold body_ok, body_count. cbn [tf_op tf_filters tf_ids tf_params].
  assert (P : Forall param_ok ps).
  { destruct (N.land (N.shiftr x 4) 1 =? 1).
    - rewrite slice_from_ok in Ep by lia. cbn [bind] in Ep. apply params_parse_inv in Ep; [apply Ep|apply bytes_ok_skipn, Hb].
    - apply Ok_inj in Ep. subst ps. constructor. }
  auto 10.
Qed.

(** ** Component values *)
Lemma u8_comp_all t v : v < 256 -> get_u8_comp t (new_u8_comp t v) = Ok v.
Proof. intros H. unfold get_u8_comp, comp_get, new_u8_comp. cbn [co_type co_contents]. rewrite N.eqb_refl. reflexivity. Qed.
Lemma u16_comp_all t v : v < 65536 -> get_u16_comp t (new_u16_comp t v) = Ok v.
Proof.
  intros H. unfold get_u16_comp, comp_get, new_u16_comp. cbn [co_type co_contents]. rewrite N.eqb_refl.
  change (slice (enc16 v) 0 2) with (Ok (enc16 v)). cbn [negb bind]. change (len (enc16 v) <? 2)%nat with false. cbv iota.
  rewrite <- (app_nil_r (enc16 v)). apply be16_enc. exact H.
Qed.
Lemma range_comp_all t lo hi : lo < 65536 -> hi < 65536 -> get_range_comp t (new_range_comp t lo hi) = Ok (lo, hi).
Proof.
  intros H H'. unfold get_range_comp, comp_get, new_range_comp. cbn [co_type co_contents]. rewrite N.eqb_refl. cbn [negb].
  change (len (enc16 lo ++ enc16 hi) <? 4)%nat with false. cbv iota.
  change (slice (enc16 lo ++ enc16 hi) 0 2) with (Ok (enc16 lo)). change (slice (enc16 lo ++ enc16 hi) 2 4) with (Ok (enc16 hi)).
  cbn [bind]. rewrite <- (app_nil_r (enc16 lo)), be16_enc by exact H. cbn [bind].
  rewrite <- (app_nil_r (enc16 hi)), be16_enc by exact H'. reflexivity.
Qed.
Lemma spi_comp_all v : v < 2 ^ 32 -> get_spi_comp (new_spi_comp v) = Ok v.
Proof.
  intros H. unfold get_spi_comp, comp_get, new_spi_comp. cbn [co_type co_contents]. rewrite N.eqb_refl. cbn [negb].
  change (len (enc32 v) <? 4)%nat with false. change (slice (enc32 v) 0 4) with (Ok (enc32 v)). cbn [bind].
  rewrite <- (app_nil_r (enc32 v)). apply be32_enc. exact H.
Qed.
Lemma tos_comp_all c m : get_tos_comp (new_tos_comp c m) = Ok (c, m).
Proof. reflexivity. Qed.
Lemma mac_comp_all t v : len v = 6%nat -> get_mac_comp t (new_mac_comp t v) = Ok v.
Proof.
  intros H. unfold get_mac_comp, comp_get, new_mac_comp. cbn [co_type co_contents]. rewrite N.eqb_refl, H. cbn [negb].
  change (6 <? 6)%nat with false. cbv iota. rewrite slice_ok by lia. rewrite <- H. cbn [skipn]. rewrite Nat.sub_0_r, firstn_all. reflexivity.
Qed.
Lemma ipv4_comp_all t a v m : to4 a = Some v -> len v = 4%nat -> len m = 4%nat -> get_ipv4_comp t (new_ipv4_comp t a m) = Ok (v, m).
Proof.
  intros E Hv Hm. unfold get_ipv4_comp, comp_get, new_ipv4_comp. rewrite E. unfold ip_bytes. cbn [co_type co_contents]. rewrite N.eqb_refl. cbn [negb].
  do 5 (destruct v as [|? v]; try discriminate Hv). do 5 (destruct m as [|? m]; try discriminate Hm). reflexivity.
Qed.
Lemma flow_label_comp_all v : v < 2 ^ 24 -> get_flow_label_comp (new_flow_label_comp v) = Ok v.
Proof.
  intros H. unfold get_flow_label_comp, comp_get, new_flow_label_comp. cbn [co_type co_contents]. rewrite N.eqb_refl. cbn [negb].
  change (len (uint32to24 v) <? 3)%nat with false. change (slice (uint32to24 v) 0 3) with (Ok (uint32to24 v)). cbn [bind].
  rewrite uint24_roundtrip, N.mod_small by exact H. reflexivity.
Qed.
Lemma comp_get_safe {A} t n (f : bytes -> res A) c : (forall b, (n <= len b)%nat -> safe (f b)) -> safe (comp_get t n f c).
Proof.
  intros H. unfold comp_get. destruct (negb (co_type c =? t)); [discriminate|].
  destruct (Nat.ltb_spec (len (co_contents c)) n); [discriminate|]. apply H. lia.
Qed.
Lemma comp_getters_safe t c :
  get_u8_comp t c <> Panic /\ get_u16_comp t c <> Panic /\ get_range_comp t c <> Panic /\ get_spi_comp c <> Panic /\
  get_tos_comp c <> Panic /\ get_mac_comp t c <> Panic /\ get_ipv4_comp t c <> Panic /\ get_ipv6_comp c <> Panic /\
  get_flow_label_comp c <> Panic.
Proof.
  repeat split; apply comp_get_safe; intros b L.
  - apply safe_idx. lia.
  - rewrite slice_ok by lia. cbn [bind skipn]. destruct b as [|? [|? b]]; cbn in L; try lia. discriminate.
  - do 4 (destruct b as [|? b]; [cbn in L; lia|]). discriminate.
  - do 4 (destruct b as [|? b]; [cbn in L; lia|]). discriminate.
  - do 2 (destruct b as [|? b]; [cbn in L; lia|]). discriminate.
  - apply safe_slice; lia.
  - rewrite !slice_ok by lia. discriminate.
  - rewrite !slice_ok by lia. discriminate.
  - rewrite !slice_ok by lia. discriminate.
Qed.


(** ** IEs *)
Lemma flat_ok {A} (f : A -> bytes) (P : A -> Prop) l : (forall a, P a -> bytes_ok (f a)) -> Forall P l -> bytes_ok (flat_map f l).
Proof. intros H. induction 1; [constructor|]. cbn [flat_map]. apply bytes_ok_app; auto. Qed.
Lemma comp_octets_ok c : comp_ok c -> bytes_ok (comp_octets c).
Proof. intros (A & B & _). constructor; assumption. Qed.
Lemma filter_octets_ok f : filter_ok f -> bytes_ok (filter_octets f).
Proof.
  intros (A & B & C & D & E & _). unfold filter_octets. apply bytes_ok_app.
  - repeat constructor; try assumption. unfold is_byte. lia.
  - apply (flat_ok _ comp_ok); [apply comp_octets_ok|assumption].
Qed.
Lemma param_octets_ok p : param_ok p -> bytes_ok (param_octets p).
Proof. intros (A & B & C & _). unfold param_octets. apply bytes_ok_app; [repeat constructor; assumption|assumption]. Qed.
Lemma tft_octets_ok f : body_ok f -> bytes_ok (tft_octets f).
Proof.
  intros (Hop & Hf & Hi & Hp & Hc & _). unfold tft_octets, body_octets, params_octets.
  apply bytes_ok_app; [|apply bytes_ok_app; [apply bytes_ok_app|]].
  - assert (e_bit f < 2) by (unfold e_bit; destruct (tf_params f); lia). repeat constructor. unfold first_octet, is_byte. lia.
  - apply (flat_ok _ filter_ok); [apply filter_octets_ok|assumption].
  - assumption.
  - apply (flat_ok _ param_ok); [apply param_octets_ok|assumption].
Qed.
Lemma somes_map {A} (l : list A) : somes (map Some l) = l.
Proof. induction l; [reflexivity|]. cbn. f_equal. assumption. Qed.
Section G.
Context (g : N -> bool).
Lemma tft_all f : body_ok f -> odd_params f -> (len (tft_octets f) < N.to_nat 65536)%nat ->
  (exists i, made g (new_bearer_tft g (tf_op f) (map Some (tf_filters f)) (tf_ids f) (map Some (tf_params f))) 84 (tft_octets f) i /\ acc_tft g i = Ok f) /\
  (exists i, made g (new_tad g (tf_op f) (map Some (tf_filters f)) (tf_ids f) (map Some (tf_params f))) 85 (tft_octets f) i /\ acc_tft g i = Ok f).
Proof.
  intros Hb Ho Hl. pose proof (tft_octets_ok f Hb) as Hok.
  assert (P : tft_parse (tft_octets f) = Ok f).
  { rewrite <- (app_nil_r (tft_octets f)). apply tft_parse_spec; [assumption|reflexivity]. }
  assert (E : new_tft (tf_op f) (map Some (tf_filters f)) (tf_ids f) (map Some (tf_params f)) = f)
    by (destruct f as [o fs ids ps]; unfold new_tft; cbn [tf_op tf_filters tf_ids tf_params]; rewrite !somes_map; reflexivity).
  unfold new_bearer_tft, new_tad. rewrite E. split.
  - exists (new2 g 84 0 (tft_octets f)). split; [apply new_or_nil_made; [apply tft_marshal_spec; assumption|lia|assumption|assumption]|exact P].
  - exists (new2 g 85 0 (tft_octets f)). split; [apply new_or_nil_made; [apply tft_marshal_spec; assumption|lia|assumption|assumption]|exact P].
Qed.
End G.
