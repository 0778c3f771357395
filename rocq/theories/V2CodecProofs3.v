(** Proofs about V2Codec.v: data forwarding and QoS. *)
From Verif Require Import Base BaseLemmas Utils UtilsProofs V2IE V2IESpec V2IEProofs V2Codec CodecSpec V2CodecProofs.
Open Scope N_scope.
Open Scope list_scope.

Lemma land15 x : x < 256 -> N.land x 15 = x mod 16.
Proof. intros H. pose proof (byte_sweep (fun x => N.land x 15 =? x mod 16) eq_refl x H). cbv beta in *. lia. Qed.
Lemma enc32_be' s v : bytes_ok s -> len s = 4%nat -> be32 s = Ok v -> enc32 v = s /\ v < 2 ^ 32.
Proof.
  intros Hs Hl. destruct s as [|a [|b [|c [|d [|]]]]]; try discriminate. bytes_split. cbn.
  intros E; injection E as <-. apply be32_of_cells; assumption.
Qed.
Lemma slice_app_eq {A} (p m q : list A) lo hi : lo = List.length p -> hi = (lo + List.length m)%nat ->
  slice (p ++ m ++ q) lo hi = Ok m.
Proof. intros -> ->. apply slice_mid; reflexivity. Qed.
Lemma idx_app_eq {A} (p q : list A) x i : i = List.length p -> idx (p ++ x :: q) i = Ok x.
Proof. intros ->. rewrite idx_app_r by lia. rewrite Nat.sub_diag. reflexivity. Qed.

Ltac buffer m :=
  match goal with |- context [zeros ?x] => set (m := x) end;
  repeat match goal with |- context [(m <? ?k)%nat] => replace (m <? k)%nat with false by (unfold m; lia) end.

(** ** S1-U data forwarding *)
Lemma s1udf_marshal_spec f : s1udf_ok f -> s1udf_marshal f = Ok (s1udf_octets f).
Proof.
  destruct f as [e n a t]. unfold s1udf_ok, s1udf_marshal, s1udf_mto, s1udf_mlen, s1udf_octets. cbn [s1_ebi s1_alen s1_addr s1_teid].
  intros (He & Hl & -> & Ha & Ht). rewrite !Nat2N.id, !len_zeros.
  assert (E15 : N.land e 15 = e) by (rewrite land15 by lia; lia). rewrite E15.
  buffer m. rewrite (w_start (zeros m)). unfold m. do 4 wr. rewrite w_end by len_tac.
  cbn [app]. rewrite <- ?app_assoc. reflexivity.
Qed.
Lemma s1udf_parse_spec f rest : s1udf_ok f -> s1udf_parse (s1udf_octets f ++ rest) = Ok f.
Proof.
  destruct f as [e n a t]. unfold s1udf_ok, s1udf_parse, s1udf_octets. cbn [s1_ebi s1_alen s1_addr s1_teid].
  intros (He & Hl & -> & Ha & Ht).
  set (b := ([e] ++ [N.of_nat (len a)] ++ a ++ enc32 t) ++ rest).
  assert (Lb : len b = (2 + len a + 4 + len rest)%nat) by (unfold b; len_tac).
  rewrite Lb. replace (2 + len a + 4 + len rest <? 2)%nat with false by lia.
  change (idx b 0) with (Ok e). change (idx b 1) with (Ok (N.of_nat (len a))). cbn [bind]. rewrite Nat2N.id.
  replace (2 + len a + 4 + len rest <? 2 + len a)%nat with false by lia.
  assert (Eb : b = [e; N.of_nat (len a)] ++ a ++ enc32 t ++ rest) by (unfold b; rewrite <- !app_assoc; reflexivity).
  rewrite Eb. rewrite slice_app_eq by (cbn; lia). cbn [bind].
  replace (2 + len a + 4 + len rest <? 2 + len a + 4)%nat with false by lia.
  replace ([e; N.of_nat (len a)] ++ a ++ enc32 t ++ rest)
    with (([e; N.of_nat (len a)] ++ a) ++ enc32 t ++ rest) by (rewrite <- !app_assoc; reflexivity).
  rewrite slice_app_eq by len_tac. cbn [bind]. rewrite be32_enc' by exact Ht. cbn [bind].
  rewrite land15 by lia. repeat f_equal. lia.
Qed.
Lemma s1udf_parse_inv b f : bytes_ok b -> s1udf_parse b = Ok f ->
  s1udf_ok f /\ exists rest, clear_first 15 b = s1udf_octets f ++ rest.
Proof.
  intros Hb. unfold s1udf_parse. destruct b as [|x [|y r]]; try discriminate. bytes_split.
  set (n := N.to_nat y).
  change (len (x :: y :: r)) with (2 + len r)%nat. replace (2 + len r <? 2)%nat with false by lia.
  change (idx (x :: y :: r) 0) with (Ok x). change (idx (x :: y :: r) 1) with (Ok y). cbn [bind]. fold n.
  destruct (2 + len r <? 2 + n)%nat eqn:E1; [discriminate|].
  rewrite slice_ok by (cbn [List.length]; lia). cbn [bind].
  destruct (2 + len r <? 2 + n + 4)%nat eqn:E2; [discriminate|].
  rewrite slice_ok by (cbn [List.length]; lia). cbn [bind].
  replace (2 + n - 2)%nat with n by lia. replace (2 + n + 4 - (2 + n))%nat with 4%nat by lia.
  cbn [skipn Nat.add].
  set (a := firstn n r). set (s := firstn 4 (skipn n r)).
  assert (La : len a = n) by (unfold a; rewrite firstn_length; lia).
  assert (Ls : len s = 4%nat) by (unfold s; rewrite firstn_length, skipn_length; lia).
  assert (Ba : bytes_ok a) by (apply bytes_ok_firstn; assumption).
  assert (Bs : bytes_ok s) by (apply bytes_ok_firstn, bytes_ok_skipn; assumption).
  destruct (be32 s) as [v| |] eqn:Ev; try discriminate. cbn [bind].
  destruct (enc32_be' s v Bs Ls Ev) as [Es Hv].
  intros Hf; injection Hf as <-. unfold s1udf_ok, s1udf_octets. cbn [s1_ebi s1_alen s1_addr s1_teid clear_first].
  rewrite La, Es. split.
  - rewrite land15 by assumption. repeat split; auto; try lia.
  - exists (skipn (n + 4) r). subst n. rewrite N2Nat.id. cbn [app]. f_equal. f_equal.
    unfold a, s. rewrite <- (skipn_skipn' r 4 (N.to_nat y)), <- app_assoc, !firstn_skipn. reflexivity.
Qed.
Lemma s1udf_parse_safe b : safe (s1udf_parse b).
Proof. unfold s1udf_parse. safe_tac. Qed.
Lemma s1udf_codec : exact_codec s1udf_ok s1udf_octets (clear_first 15) s1udf_marshal s1udf_parse.
Proof.
  split; [exact s1udf_marshal_spec|]. split; [intros; apply s1udf_parse_spec; assumption|].
  split; [exact s1udf_parse_inv|exact s1udf_parse_safe].
Qed.

(** ** S103 PDN data forwarding *)
Lemma ebis_writes ebis : Forall (fun e => e < 16) ebis -> forall done b,
  (len done + len ebis <= len b)%nat ->
  ebis_mto ebis (len done) (done ++ skipn (len done) b) = Ok ((done ++ ebis) ++ skipn (len (done ++ ebis)) b).
Proof.
  induction 1 as [|e r He Hr IH]; intros done b Hl; cbn [ebis_mto].
  - rewrite app_nil_r. reflexivity.
  - cbn [List.length] in Hl. rewrite w_set by lia. cbn [bind].
    replace (N.land e 15) with e by (rewrite land15 by lia; lia).
    replace (S (len done)) with (len (done ++ [e])) by len_tac.
    rewrite IH by len_tac. replace ((done ++ [e]) ++ r) with (done ++ e :: r) by (rewrite <- app_assoc; reflexivity). reflexivity.
Qed.
Lemma s103_marshal_spec f : s103_ok f -> Forall (fun e => e < 16) (s3_ebis f) -> s103_marshal f = Ok (s103_octets f).
Proof.
  destruct f as [n a k m es]. unfold s103_ok, s103_marshal, s103_mto, s103_mlen, s103_octets. cbn [s3_alen s3_addr s3_key s3_num s3_ebis].
  intros (Hl & -> & Ha & Hk & He & -> & _) H16. rewrite !Nat2N.id, !len_zeros.
  buffer M. rewrite (w_start (zeros M)). unfold M. do 4 wr.
  match goal with |- ebis_mto _ ?o (?d ++ _) = _ => replace o with (len d) by len_tac end.
  rewrite ebis_writes; [|assumption|unfold M; len_tac].
  rewrite w_end by (unfold M; len_tac). cbn [app]. rewrite <- ?app_assoc. reflexivity.
Qed.
Lemma s103_parse_spec f rest : s103_ok f -> s103_parse (s103_octets f ++ rest) = Ok f.
Proof.
  destruct f as [n a k m es]. unfold s103_ok, s103_parse, s103_octets. cbn [s3_alen s3_addr s3_key s3_num s3_ebis].
  intros (Hl & -> & Ha & Hk & He & -> & _).
  set (b := ([N.of_nat (len a)] ++ a ++ enc32 k ++ [N.of_nat (len es)] ++ es) ++ rest).
  assert (Lb : len b = (1 + len a + 4 + 1 + len es + len rest)%nat) by (unfold b; len_tac).
  rewrite Lb. set (L := (1 + len a + 4 + 1 + len es + len rest)%nat) in *.
  replace (L <? 2)%nat with false by lia.
  change (idx b 0) with (Ok (N.of_nat (len a))). cbn [bind]. rewrite Nat2N.id.
  replace (L <? 1 + len a)%nat with false by lia.
  assert (E1 : b = [N.of_nat (len a)] ++ a ++ (enc32 k ++ [N.of_nat (len es)] ++ es ++ rest))
    by (unfold b; rewrite <- !app_assoc; reflexivity).
  assert (E2 : b = ([N.of_nat (len a)] ++ a) ++ enc32 k ++ ([N.of_nat (len es)] ++ es ++ rest))
    by (unfold b; rewrite <- !app_assoc; reflexivity).
  assert (E3 : b = ([N.of_nat (len a)] ++ a ++ enc32 k) ++ N.of_nat (len es) :: (es ++ rest))
    by (unfold b; rewrite <- !app_assoc; reflexivity).
  assert (E4 : b = ([N.of_nat (len a)] ++ a ++ enc32 k ++ [N.of_nat (len es)]) ++ es ++ rest)
    by (unfold b; rewrite <- !app_assoc; reflexivity).
  rewrite E1 at 1. rewrite slice_app_eq by (cbn; lia). cbn [bind].
  replace (L <? 1 + len a + 4)%nat with false by lia.
  rewrite E2 at 1. rewrite slice_app_eq by len_tac. cbn [bind]. rewrite be32_enc' by exact Hk. cbn [bind].
  replace (L <=? 1 + len a + 4)%nat with false by lia.
  rewrite E3 at 1. rewrite idx_app_eq by len_tac. cbn [bind]. rewrite Nat2N.id.
  replace (L <? 1 + len a + 4 + 1 + len es)%nat with false by lia.
  rewrite E4. rewrite slice_app_eq by len_tac. reflexivity.
Qed.
Lemma s103_parse_inv b f : bytes_ok b -> s103_parse b = Ok f ->
  s103_ok f /\ exists rest, b = s103_octets f ++ rest.
Proof.
  intros Hb. unfold s103_parse. destruct b as [|x r]; try discriminate. bytes_split.
  set (n := N.to_nat x).
  destruct (len (x :: r) <? 2)%nat eqn:E0; [discriminate|].
  change (idx (x :: r) 0) with (Ok x). cbn [bind]. fold n.
  destruct (len (x :: r) <? 1 + n)%nat eqn:E1; [discriminate|].
  rewrite slice_ok by lia. cbn [bind]. 
  destruct (len (x :: r) <? 1 + n + 4)%nat eqn:E2; [discriminate|].
  rewrite slice_ok by lia. cbn [bind].
  replace (1 + n - 1)%nat with n by lia. replace (1 + n + 4 - (1 + n))%nat with 4%nat by lia.
  cbn [skipn Nat.add]. set (a := firstn n r). set (s := firstn 4 (skipn n r)).
  cbn [List.length] in *.
  assert (La : len a = n) by (unfold a; rewrite firstn_length; lia).
  assert (Ls : len s = 4%nat) by (unfold s; rewrite firstn_length, skipn_length; lia).
  assert (Ba : bytes_ok a) by (apply bytes_ok_firstn; assumption).
  assert (Bs : bytes_ok s) by (apply bytes_ok_firstn, bytes_ok_skipn; assumption).
  destruct (be32 s) as [v| |] eqn:Ev; try discriminate. cbn [bind].
  destruct (enc32_be' s v Bs Ls Ev) as [Es Hv].
  destruct (S (len r) <=? S (n + 4))%nat eqn:E3; [discriminate|].
  destruct (skipn (n + 4) r) as [|y q] eqn:Eq.
  { assert (len (skipn (n + 4) r) = 0%nat) as X by (rewrite Eq; reflexivity). rewrite skipn_length in X. lia. }
  assert (Er : r = a ++ s ++ y :: q).
  { rewrite <- Eq. unfold a, s. rewrite <- (skipn_skipn' r 4 n), !firstn_skipn. reflexivity. }
  assert (Ei : idx (x :: r) (S (n + 4)) = Ok y).
  { rewrite Er. replace (x :: a ++ s ++ y :: q) with ((x :: a ++ s) ++ y :: q) by (cbn; rewrite <- app_assoc; reflexivity).
    apply idx_app_eq. cbn [List.length]. rewrite app_length, La, Ls. reflexivity. }
  rewrite Ei. cbn [bind].
  destruct (S (len r) <? S (n + 4 + 1 + N.to_nat y))%nat eqn:E4; [discriminate|].
  rewrite slice_ok by (cbn; lia). cbn [bind].
  replace (S (n + 4 + 1 + N.to_nat y) - S (n + 4 + 1))%nat with (N.to_nat y) by lia.
  intros Hf; injection Hf as <-.
  assert (Sk : skipn (S (n + 4 + 1)) (x :: r) = q).
  { cbn [skipn]. rewrite <- (skipn_skipn' r 1 (n + 4)), Eq. reflexivity. }
  assert (Byq : bytes_ok (y :: q)) by (rewrite <- Eq; apply bytes_ok_skipn; assumption). bytes_split.
  assert (Lq : (N.to_nat y <= len q)%nat).
  { assert (len (skipn (n + 4) r) = S (len q)) as X by (rewrite Eq; reflexivity). rewrite skipn_length in X. lia. }
  change (match r with [] => [] | _ :: l => skipn (n + 4) l end) with (skipn (S (n + 4)) r).
  unfold s103_ok, s103_octets. cbn [s3_alen s3_addr s3_key s3_num s3_ebis].
  change (skipn (n + 4 + 1) r) with (skipn (S (n + 4 + 1)) (x :: r)) in *. rewrite Sk.
  rewrite La, Es, (firstn_length_le _ Lq). unfold n. rewrite !N2Nat.id.
  split.
  - repeat split; auto; try lia. apply bytes_ok_firstn; assumption.
  - exists (skipn (N.to_nat y) q). fold n. rewrite Er at 1. cbn [app]. f_equal. rewrite <- !app_assoc. f_equal. f_equal.
    cbn [app]. rewrite firstn_skipn. reflexivity.
Qed.
Lemma s103_parse_safe b : safe (s103_parse b).
Proof. unfold s103_parse. safe_tac. Qed.
