(** Proofs about V2Pco.v. *)
From Verif Require Import Base BaseLemmas V2IE V2IESpec V2IEProofs V2Codec V2Pco CodecSpec CodecSpec2 V2CodecProofs V2CodecProofs3 V2CodecProofs5.
Open Scope N_scope.
Open Scope list_scope.

Definition mk_container (c : N * bytes) : container := new_container (fst c) (snd c).
Definition cont_oct (c : N * bytes) : bytes := container_octets (fst c) (snd c).

Lemma len_container c : container_mlen (mk_container c) = len (cont_oct c).
Proof. destruct c as [i v]. unfold container_mlen, cont_oct, container_octets. cbn [mk_container new_container ct_contents fst snd]. len_tac. Qed.
Lemma u8_len (v : bytes) : (len v < 256)%nat -> u8 (N.of_nat (len v)) = N.of_nat (len v).
Proof. intros. unfold u8. apply N.mod_small. lia. Qed.
Lemma container_writes c : container_val_ok c -> writes (container_mto (mk_container c)) (cont_oct c).
Proof.
  destruct c as [i v]. unfold container_val_ok, cont_oct. cbn [fst snd]. intros (Hi & Hl & Hb) b L.
  unfold container_octets in *. cbn [mk_container new_container ct_contents fst snd]. unfold container_mto, mk_container, new_container.
  cbn [ct_id ct_length ct_contents fst snd]. rewrite u8_len by assumption.
  rewrite (w_start b) at 1. rewrite !app_length in L. cbn [List.length enc16] in L. wr. wr.
  destruct (N.eqb_spec (N.of_nat (len v)) 0) as [E|E].
  - destruct v; [|cbn in E; lia]. reflexivity.
  - wr. cbn [app]. rewrite <- ?app_assoc. reflexivity.
Qed.
Lemma containers_writes l : Forall container_val_ok l -> forall done b,
  (len done + len (flat_map cont_oct l) <= len b)%nat ->
  containers_mto (map mk_container l) (len done) (done ++ skipn (len done) b)
  = Ok ((done ++ flat_map cont_oct l) ++ skipn (len (done ++ flat_map cont_oct l)) b).
Proof.
  induction 1 as [|c r Hc Hr IH]; intros done b L; cbn [map containers_mto flat_map] in *.
  - rewrite app_nil_r. reflexivity.
  - rewrite app_length in L. rewrite (on_slice_from_writes _ _ _ _ (container_writes c Hc)) by lia. cbn [bind].
    replace (len done + container_mlen (mk_container c))%nat with (len (done ++ cont_oct c)) by (rewrite app_length, len_container; reflexivity).
    rewrite IH by (rewrite app_length; lia). rewrite <- !app_assoc. reflexivity.
Qed.
Lemma containers_total l : containers_len (map mk_container l) = len (flat_map cont_oct l).
Proof.
  induction l as [|c r IH]; [reflexivity|]. cbn [map containers_len fold_right flat_map]. rewrite app_length, <- IH, len_container. reflexivity.
Qed.
Lemma pco_marshal_spec ext proto l : proto < 8 -> Forall container_val_ok l ->
  pco_marshal (Pco ext proto (map mk_container l)) = Ok (pco_octets proto l).
Proof.
  intros Hp Hl. unfold pco_marshal, pco_mto, pco_mlen. cbn [pc_proto pc_opts].
  rewrite containers_total. rewrite (w_start (zeros _)). wr.
  change 1%nat with (len ([] ++ [N.lor (N.land proto 7) 128])) at 1.
  rewrite containers_writes by (try assumption; rewrite app_length, len_zeros; cbn; lia).
  rewrite w_end by len_tac. unfold pco_octets, cont_oct. do 2 f_equal.
  cbn [app]. f_equal. change 7 with (N.ones 3). rewrite N.land_ones, N.mod_small by assumption.
  assert (B : forallb (fun p => N.lor p 128 =? 128 + p) (below 8) = true) by reflexivity.
  rewrite forallb_forall in B. specialize (B proto (below_complete 8 proto Hp)). lia.
Qed.
Lemma container_parse_spec c rest : container_val_ok c -> container_parse (cont_oct c ++ rest) = Ok (mk_container c).
Proof.
  destruct c as [i v]. unfold container_val_ok, cont_oct, container_octets, mk_container, new_container. cbn [fst snd].
  intros (Hi & Hl & Hb). rewrite u8_len by assumption.
  set (b := (enc16 i ++ [N.of_nat (len v)] ++ v) ++ rest).
  assert (Lb : len b = (3 + len v + len rest)%nat) by (unfold b; len_tac).
  unfold container_parse. rewrite Lb. replace (3 + len v + len rest <? 3)%nat with false by lia.
  change (slice b 0 2) with (Ok (enc16 i)). change (idx b 2) with (Ok (N.of_nat (len v))). cbn [bind].
  rewrite be16_enc' by exact Hi. cbn [bind]. rewrite Nat2N.id.
  destruct v as [|x v]; [reflexivity|].
  replace (negb (N.of_nat (len (x :: v)) =? 0)) with true by (cbn; lia).
  replace (3 + len (x :: v) <=? 3 + len (x :: v) + len rest)%nat with true by lia. cbn [andb].
  replace b with ((enc16 i ++ [N.of_nat (len (x :: v))]) ++ (x :: v) ++ rest) by (unfold b; rewrite <- !app_assoc; reflexivity).
  rewrite slice_app_eq by (cbn; lia). reflexivity.
Qed.
Lemma containers_parse_spec l : Forall container_val_ok l -> forall done fuel, (List.length l < fuel)%nat ->
  containers_parse fuel (done ++ flat_map cont_oct l) (len done) = Ok (map mk_container l).
Proof.
  induction 1 as [|c r Hc Hr IH]; intros done [|fuel] Hf; try lia; cbn [containers_parse flat_map map].
  - rewrite app_nil_r, Nat.leb_refl. reflexivity.
  - assert (Lc : (3 <= len (cont_oct c))%nat) by (unfold cont_oct, container_octets; cbn; lia).
    rewrite !app_length. replace (len done + (len (cont_oct c) + len (flat_map cont_oct r)) <=? len done)%nat with false by lia.
    rewrite slice_from_app by reflexivity. cbn [bind]. rewrite container_parse_spec by assumption. cbn [bind].
    replace (len done + container_mlen (mk_container c))%nat with (len (done ++ cont_oct c)) by (rewrite app_length, len_container; reflexivity).
    rewrite app_assoc, IH by (cbn in Hf; lia). reflexivity.
Qed.
Lemma len_le_flat l : (List.length l <= len (flat_map cont_oct l))%nat.
Proof.
  induction l as [|c r IH]; cbn [flat_map]; [cbn; lia|]. rewrite app_length. cbn [List.length].
  assert (3 <= len (cont_oct c))%nat by (unfold cont_oct, container_octets; cbn; lia). lia.
Qed.
Lemma first_octet p : p < 8 -> N.land (N.shiftr (128 + p) 7) 1 = 1 /\ N.land (128 + p) 7 = p.
Proof.
  intros H. assert (B : forallb (fun p => (N.land (N.shiftr (128 + p) 7) 1 =? 1) && (N.land (128 + p) 7 =? p)) (below 8) = true) by reflexivity.
  rewrite forallb_forall in B. specialize (B p (below_complete 8 p H)). lia.
Qed.
Lemma pco_parse_spec proto l : proto < 8 -> Forall container_val_ok l ->
  pco_parse (pco_octets proto l) = Ok (Pco 1 proto (map mk_container l)).
Proof.
  intros Hp Hl. unfold pco_parse, pco_octets. fold cont_oct.
  change (flat_map (fun c => container_octets (fst c) (snd c)) l) with (flat_map cont_oct l).
  rewrite (app_length [128 + proto]). replace (_ <? 1)%nat with false by (cbn; lia).
  change (idx ([128 + proto] ++ flat_map cont_oct l) 0) with (Ok (128 + proto)). cbn [bind].
  change (containers_parse ?f ?b 1) with (containers_parse f b (len [128 + proto])). rewrite containers_parse_spec; [|assumption|pose proof (len_le_flat l); cbn; lia].
  cbn [bind]. destruct (first_octet proto Hp) as [-> ->]. reflexivity.
Qed.
(** what was accepted, when no container announces more than it has *)
Definition untruncated (c : container) : Prop := ct_length c = N.of_nat (len (ct_contents c)).
Definition cont_val (c : container) : N * bytes := (ct_id c, ct_contents c).
Lemma container_parse_inv b c : bytes_ok b -> container_parse b = Ok c -> untruncated c ->
  container_val_ok (cont_val c) /\ mk_container (cont_val c) = c /\ exists rest, b = cont_oct (cont_val c) ++ rest.
Proof.
  intros Hb. unfold container_parse. do 3 (destruct b as [|? b]; [run; discriminate|]). bytes_split.
  change (slice (n :: n0 :: n1 :: b) 0 2) with (Ok [n; n0]).
  change (idx (n :: n0 :: n1 :: b) 2) with (Ok n1). cbn [bind].
  change (be16 [n; n0]) with (Ok (n * 256 + n0)). cbn [bind List.length].
  replace (S (S (S (len b))) <? 3)%nat with false by lia.
  destruct (N.eqb_spec n1 0) as [->|Hn].
  - cbn [negb andb]. intros E; apply Ok_inj in E; subst c. intros _. unfold cont_val, mk_container, new_container, container_val_ok, cont_oct, container_octets.
    cbn [ct_id ct_contents fst snd]. split; [|split; [reflexivity|]].
    + split; [change (2 ^ 16) with 65536; unfold is_byte in *; lia|]. split; [cbn; lia|constructor].
    + exists b. rewrite enc16_be by assumption. reflexivity.
  - cbn [negb]. destruct (Nat.leb_spec (3 + N.to_nat n1) (S (S (S (len b))))) as [L|L]; cbn [andb].
    + intros E. apply bind_ok_inv in E. destruct E as (v & Ev & E). apply Ok_inj in E; subst c. intros _.
      assert (Lv : len v = N.to_nat n1) by (apply slice_len in Ev; lia).
      assert (Evb : b = v ++ skipn (N.to_nat n1) b).
      { apply slice_inv in Ev. destruct Ev as (_ & _ & -> & _).
        change (skipn 3 (n :: n0 :: n1 :: b)) with b. replace (3 + N.to_nat n1 - 3)%nat with (N.to_nat n1) by lia.
        symmetry. apply firstn_skipn. }
      unfold cont_val, mk_container, new_container, container_val_ok, cont_oct, container_octets.
      cbn [ct_id ct_contents fst snd].
      rewrite u8_len by (unfold is_byte in *; lia).
      split; [|split].
      * split; [change (2 ^ 16) with 65536; unfold is_byte in *; lia|]. split; [unfold is_byte in *; lia|].
        match goal with H : bytes_ok b |- _ => rewrite Evb in H; apply bytes_ok_app_inv in H; apply H end.
      * rewrite Lv, N2Nat.id. reflexivity.
      * exists (skipn (N.to_nat n1) b). rewrite Lv, N2Nat.id. rewrite enc16_be by assumption. cbn [app]. rewrite <- Evb. reflexivity.
    + intros E; apply Ok_inj in E; subst c. unfold untruncated. cbn [ct_length ct_contents List.length]. intros E0. exfalso. apply Hn. exact E0.
Qed.
Lemma container_parse_safe b : safe (container_parse b).
Proof. unfold container_parse. safe_tac. Qed.
Lemma container_mlen_pos c : (3 <= container_mlen c)%nat.
Proof. unfold container_mlen. lia. Qed.
Lemma containers_parse_safe fuel : forall b off, (len b - off < fuel)%nat -> safe (containers_parse fuel b off).
Proof.
  induction fuel as [|fuel IH]; intros b off H; cbn [containers_parse].
  - lia.
  - destruct (Nat.leb_spec (len b) off); [discriminate|].
    rewrite slice_from_ok by lia. cbn [bind]. apply safe_bind; [apply container_parse_safe|].
    intros c _. apply safe_bind; [|discriminate]. apply IH. pose proof (container_mlen_pos c). lia.
Qed.
Lemma pco_parse_safe b : pco_parse b <> Panic.
Proof.
  change (safe (pco_parse b)). unfold pco_parse. destruct (Nat.ltb_spec (len b) 1); [discriminate|].
  apply safe_bind; [apply safe_idx; lia|]. intros x _. apply safe_bind; [apply containers_parse_safe; lia|]. discriminate.
Qed.
Lemma containers_parse_inv fuel : forall b off l, bytes_ok b -> (off <= len b)%nat ->
  containers_parse fuel b off = Ok l -> Forall untruncated l ->
  Forall container_val_ok (map cont_val l) /\ map mk_container (map cont_val l) = l /\
  skipn off b = flat_map cont_oct (map cont_val l).
Proof.
  induction fuel as [|fuel IH]; intros b off l Hb Ho E Hu; cbn [containers_parse] in E; [discriminate|].
  destruct (Nat.leb_spec (len b) off).
  { apply Ok_inj in E. subst l. rewrite skipn_all2 by lia. repeat split. constructor. }
  rewrite slice_from_ok in E by lia. cbn [bind] in E.
  apply bind_ok_inv in E. destruct E as (c & Ec & E). apply bind_ok_inv in E. destruct E as (r & Er & E).
  apply Ok_inj in E. subst l. apply Forall_cons_iff in Hu. destruct Hu as [Hc Hr].
  destruct (container_parse_inv (skipn off b) c (bytes_ok_skipn off b Hb) Ec Hc) as (Vc & Mc & rest & Eb).
  assert (Lc : container_mlen c = len (cont_oct (cont_val c))) by (rewrite <- Mc at 1; apply len_container).
  assert (Lb : (len b - off = len (cont_oct (cont_val c)) + len rest)%nat)
    by (rewrite <- (skipn_length off b), Eb, app_length; reflexivity).
  destruct (IH b (off + container_mlen c)%nat r Hb) as (V & M & S); try assumption; [lia|].
  cbn [map flat_map]. split; [constructor; assumption|]. split; [rewrite M, Mc; reflexivity|].
  rewrite <- S, Eb. f_equal. rewrite <- skipn_skipn', Eb, Lc.
  rewrite skipn_app, skipn_all, Nat.sub_diag. reflexivity.
Qed.
Lemma pco_parse_inv b f : bytes_ok b -> pco_parse b = Ok f -> Forall untruncated (pc_opts f) ->
  exists l, Forall container_val_ok l /\ pc_opts f = map mk_container l /\ pc_proto f < 8 /\
    exists x, b = x :: flat_map cont_oct l /\ pc_proto f = x mod 8 /\ pc_ext f = x / 128.
Proof.
  intros Hb. unfold pco_parse. destruct b as [|x b]; [discriminate|].
  change (idx (x :: b) 0) with (Ok x). cbn [bind List.length]. replace (S (len b) <? 1)%nat with false by lia.
  intros E. apply bind_ok_inv in E. destruct E as (l & El & E). apply Ok_inj in E. subst f. cbn [pc_opts pc_proto pc_ext].
  intros Hu. assert (L1 : (1 <= len (x :: b))%nat) by (cbn; lia). destruct (containers_parse_inv _ (x :: b) 1 l Hb L1 El Hu) as (V & M & S).
  exists (map cont_val l). split; [exact V|]. split; [symmetry; exact M|].
  apply Forall_cons_iff in Hb. destruct Hb as [Hx _].
  assert (B : N.land x 7 = x mod 8 /\ N.land (N.shiftr x 7) 1 = x / 128).
  { assert (Bs : forallb (fun x => (N.land x 7 =? x mod 8) && (N.land (N.shiftr x 7) 1 =? x / 128)) (below 256) = true) by (vm_compute; reflexivity).
    rewrite forallb_forall in Bs. specialize (Bs x (below_complete 256 x Hx)). cbv beta in Bs.
    apply andb_prop in Bs. rewrite !N.eqb_eq in Bs. exact Bs. }
  destruct B as [-> ->]. split; [apply N.mod_lt; discriminate|]. exists x. split; [f_equal; exact S|]. split; reflexivity.
Qed.

Lemma pco_octets_ok proto l : proto < 8 -> Forall container_val_ok l -> bytes_ok (pco_octets proto l).
Proof.
  intros Hp Hl. unfold pco_octets. apply bytes_ok_app; [repeat constructor; unfold is_byte; lia|].
  induction Hl as [|c r Hc Hr IH]; [constructor|]. cbn [flat_map]. apply bytes_ok_app; [|exact IH].
  destruct Hc as (_ & Hlen & Hb). unfold container_octets. apply bytes_ok_app; [apply enc16_ok|].
  apply bytes_ok_app; [repeat constructor; unfold is_byte; lia|assumption].
Qed.
Lemma pco_all g proto l : proto < 8 -> Forall container_val_ok l -> (len (pco_octets proto l) < N.to_nat 65536)%nat ->
  exists i, made g (new_pco g proto (map mk_container l)) 78 (pco_octets proto l) i /\
    acc_pco g i = Ok (Pco 1 proto (map mk_container l)).
Proof.
  intros Hp Hl Hn. exists (new2 g 78 0 (pco_octets proto l)). split.
  - unfold new_pco, new_pco_fields. apply new_or_nil_made; [apply pco_marshal_spec; assumption|lia|apply pco_octets_ok; assumption|assumption].
  - unfold acc_pco. rewrite via_new2. ty. rewrite pco_parse_spec by assumption. reflexivity.
Qed.

(** ** PPP, PAP, CHAP, IPCP *)
Lemma ppp_all code id data rest : code < 256 -> id < 256 -> data <> [] -> (4 + len data < N.to_nat 65536)%nat ->
  ppp_marshal (new_ppp code id data) = Ok (ppp_octets code id data) /\
  ppp_parse (ppp_octets code id data ++ rest) = Ok (new_ppp code id data).
Proof.
  intros Hc Hi Hd Hl.
  assert (Eu : u16 (N.of_nat (4 + len data)) = N.of_nat (4 + len data)) by (unfold u16; apply N.mod_small; lia).
  assert (1 <= len data)%nat by (destruct data; [congruence|cbn; lia]).
  split.
  - unfold ppp_marshal, ppp_mto, ppp_mlen, new_ppp. cbn [pp_code pp_id pp_length pp_payload]. rewrite Eu, len_zeros.
    replace (4 + len data <? 5)%nat with false by lia.
    set (m := (4 + len data)%nat). rewrite (w_start (zeros m)). unfold m. do 4 wr. rewrite w_end by len_tac.
    cbn [app]. rewrite <- ?app_assoc. reflexivity.
  - unfold ppp_octets, new_ppp. rewrite Eu. set (n := N.of_nat (4 + len data)).
    assert (Hn : n < 65536) by (unfold n; lia).
    set (b := ([code; id] ++ enc16 n ++ data) ++ rest).
    assert (Lb : len b = (4 + len data + len rest)%nat) by (unfold b; len_tac).
    unfold ppp_parse. rewrite Lb. replace (4 + len data + len rest <? 5)%nat with false by lia.
    change (idx b 0) with (Ok code). change (idx b 1) with (Ok id). change (slice b 2 4) with (Ok (enc16 n)). cbn [bind].
    rewrite be16_enc' by exact Hn. cbn [bind]. unfold n at 1 2. rewrite !Nat2N.id.
    replace (4 + len data + len rest <? 4 + len data)%nat with false by lia.
    replace b with (([code; id] ++ enc16 n) ++ data ++ rest) by (unfold b; rewrite <- !app_assoc; reflexivity).
    rewrite slice_app_eq by (cbn; lia). reflexivity.
Qed.
Lemma pap_all id pw rest : (len id < 256)%nat -> (len pw < 256)%nat ->
  pap_marshal (new_pap id pw) = Ok (pap_octets id pw) /\ pap_parse (pap_octets id pw ++ rest) = Ok (new_pap id pw).
Proof.
  intros Hi Hp. unfold new_pap. rewrite !u8_len by assumption. split.
  - unfold pap_marshal, pap_mto, pap_mlen. cbn [pa_idlen pa_id pa_pwlen pa_pw]. rewrite len_zeros, !Nat2N.id.
    set (m := (2 + len id + len pw)%nat).
    replace (m <? 2)%nat with false by (unfold m; lia).
    replace (m <? 1 + len id)%nat with false by (unfold m; lia).
    replace (m <? 1 + len id + 1 + len pw)%nat with false by (unfold m; lia).
    rewrite (w_start (zeros m)). unfold m. do 4 wr. rewrite w_end by len_tac. cbn [app]. rewrite <- ?app_assoc. reflexivity.
  - unfold pap_octets. set (b := ([N.of_nat (len id)] ++ id ++ [N.of_nat (len pw)] ++ pw) ++ rest).
    assert (Lb : len b = (2 + len id + len pw + len rest)%nat) by (unfold b; len_tac).
    unfold pap_parse. rewrite Lb. replace (2 + len id + len pw + len rest <? 2)%nat with false by lia.
    change (idx b 0) with (Ok (N.of_nat (len id))). cbn [bind]. rewrite Nat2N.id.
    replace (2 + len id + len pw + len rest <? 1 + len id)%nat with false by lia.
    assert (E1 : b = [N.of_nat (len id)] ++ id ++ ([N.of_nat (len pw)] ++ pw ++ rest)) by (unfold b; rewrite <- !app_assoc; reflexivity).
    assert (E2 : b = ([N.of_nat (len id)] ++ id) ++ N.of_nat (len pw) :: (pw ++ rest)) by (unfold b; rewrite <- !app_assoc; reflexivity).
    assert (E3 : b = ([N.of_nat (len id)] ++ id ++ [N.of_nat (len pw)]) ++ pw ++ rest) by (unfold b; rewrite <- !app_assoc; reflexivity).
    rewrite E1 at 1. rewrite slice_app_eq by (cbn; lia). cbn [bind].
    rewrite E2 at 1. rewrite idx_app_eq by (cbn; lia). cbn [bind]. rewrite Nat2N.id.
    replace (2 + len id + len pw + len rest <? 1 + len id + 1 + len pw)%nat with false by lia.
    rewrite E3 at 1. rewrite slice_app_eq by len_tac. reflexivity.
Qed.
Lemma chap_all v name : (len v < 256)%nat -> (1 <= len v + len name)%nat ->
  chap_marshal (new_chap v name) = Ok (chap_octets v name) /\ chap_parse (chap_octets v name) = Ok (new_chap v name).
Proof.
  intros Hv Hn. unfold new_chap. rewrite u8_len by assumption. split.
  - unfold chap_marshal, chap_mto, chap_mlen. cbn [ch_size ch_value ch_name]. rewrite len_zeros, !Nat2N.id.
    set (m := (1 + len v + len name)%nat).
    replace (m <? 2)%nat with false by (unfold m; lia).
    replace (m <? 1 + len v)%nat with false by (unfold m; lia).
    rewrite (w_start (zeros m)). unfold m. do 3 wr. rewrite w_end by len_tac. cbn [app]. rewrite <- ?app_assoc. reflexivity.
  - unfold chap_octets. set (b := [N.of_nat (len v)] ++ v ++ name).
    assert (Lb : len b = (1 + len v + len name)%nat) by (unfold b; len_tac).
    unfold chap_parse. rewrite Lb. replace (1 + len v + len name <? 2)%nat with false by lia.
    change (idx b 0) with (Ok (N.of_nat (len v))). cbn [bind]. rewrite Nat2N.id.
    replace (1 + len v + len name <? 1 + len v)%nat with false by lia.
    unfold b at 1. rewrite slice_app_eq by (cbn; lia). cbn [bind].
    replace b with (([N.of_nat (len v)] ++ v) ++ name) by (unfold b; rewrite <- !app_assoc; reflexivity).
    rewrite slice_from_app by (cbn; lia). reflexivity.
Qed.
Lemma chap_parse_safe b : chap_parse b <> Panic.
Proof. change (safe (chap_parse b)). unfold chap_parse. safe_tac. Qed.
Lemma ipcp_all t data rest : data <> [] -> (2 + len data < 256)%nat ->
  ipcp_marshal (new_ipcp t data) = Ok (ipcp_octets t data) /\ ipcp_parse (ipcp_octets t data ++ rest) = Ok (new_ipcp t data).
Proof.
  intros Hd Hl. assert (1 <= len data)%nat by (destruct data; [congruence|cbn; lia]).
  assert (Eu : u8 (N.of_nat (2 + len data)) = N.of_nat (2 + len data)) by (unfold u8; apply N.mod_small; lia).
  unfold new_ipcp. rewrite Eu. split.
  - unfold ipcp_marshal, ipcp_mto, ipcp_mlen. cbn [ip_type ip_length ip_payload]. rewrite len_zeros.
    replace (2 + len data <? 3)%nat with false by lia.
    set (m := (2 + len data)%nat). rewrite (w_start (zeros m)). unfold m. do 3 wr. rewrite w_end by len_tac.
    cbn [app]. rewrite <- ?app_assoc. reflexivity.
  - unfold ipcp_octets. set (b := ([t; N.of_nat (2 + len data)] ++ data) ++ rest).
    assert (Lb : len b = (2 + len data + len rest)%nat) by (unfold b; len_tac).
    unfold ipcp_parse. rewrite Lb. replace (2 + len data + len rest <? 3)%nat with false by lia.
    change (idx b 0) with (Ok t). change (idx b 1) with (Ok (N.of_nat (2 + len data))). cbn [bind]. rewrite Nat2N.id.
    replace (2 + len data + len rest <? 2 + len data)%nat with false by lia.
    replace b with ([t; N.of_nat (2 + len data)] ++ data ++ rest) by (unfold b; rewrite <- !app_assoc; reflexivity).
    rewrite slice_app_eq by (cbn; lia). reflexivity.
Qed.
(** the only inputs on which the PPP, PAP and IPCP parsers panic *)
Lemma ppp_parse_panics b : bytes_ok b -> (ppp_parse b = Panic <-> exists c i n d, b = [c; i; 0; n] ++ d /\ n < 4 /\ d <> []).
Proof.
  intros Hb. unfold ppp_parse. split.
  - do 5 (destruct b as [|? b]; [run; discriminate|]). bytes_split.
    cbn [List.length]. replace (S (S (S (S (S (len b))))) <? 5)%nat with false by lia.
    change (idx (n :: n0 :: n1 :: n2 :: n3 :: b) 0) with (Ok n). change (idx (n :: n0 :: n1 :: n2 :: n3 :: b) 1) with (Ok n0).
    change (slice (n :: n0 :: n1 :: n2 :: n3 :: b) 2 4) with (Ok [n1; n2]). cbn [bind]. change (be16 [n1; n2]) with (Ok (n1 * 256 + n2)).
    cbn [bind]. destruct (Nat.ltb_spec (S (S (S (S (S (len b)))))) (N.to_nat (n1 * 256 + n2))) as [L|L]; [discriminate|].
    destruct (Nat.le_gt_cases 4 (N.to_nat (n1 * 256 + n2))) as [G|G].
    + rewrite slice_ok by (cbn [List.length]; lia). discriminate.
    + intros _. assert (n1 = 0) as -> by lia. exists n, n0, n2, (n3 :: b). split; [reflexivity|]. split; [lia|discriminate].
  - intros (c & i & n & d & -> & Hn & Hd). destruct d as [|x d]; [congruence|]. cbn [app].
    cbn [List.length]. replace (S (S (S (S (S (len d))))) <? 5)%nat with false by lia.
    change (idx (c :: i :: 0 :: n :: x :: d) 0) with (Ok c). change (idx (c :: i :: 0 :: n :: x :: d) 1) with (Ok i).
    change (slice (c :: i :: 0 :: n :: x :: d) 2 4) with (Ok [0; n]). cbn [bind]. change (be16 [0; n]) with (Ok (0 * 256 + n)).
    cbn [bind]. replace (0 * 256 + n) with n by lia. replace (S (S (S (S (S (len d))))) <? N.to_nat n)%nat with false by lia.
    unfold slice. replace (4 <=? N.to_nat n)%nat with false by lia. reflexivity.
Qed.
