(** Proofs about V2Codec.v: PAA, data forwarding, QoS. *)
From Verif Require Import Base BaseLemmas Utils UtilsProofs V2IE V2IESpec V2IEProofs V2Codec CodecSpec V2CodecProofs.
Open Scope N_scope.
Open Scope list_scope.

Lemma land7 x : x < 256 -> N.land x 7 < 8.
Proof. intros H. pose proof (byte_sweep (fun x => N.land x 7 <? 8) eq_refl x H). cbv beta in *. lia. Qed.
Lemma land7_small t : t < 8 -> N.land t 7 = t.
Proof. intros H. pose proof (below_sweep 8 (fun x => N.land x 7 =? x) eq_refl t H). cbv beta in *. lia. Qed.
Ltac eight t H := assert (t = 0 \/ t = 1 \/ t = 2 \/ t = 3 \/ t = 4 \/ t = 5 \/ t = 6 \/ t = 7)
   as H by lia.

(** ** PAA *)
Lemma paa_marshal_spec f : paa_ok f -> paa_marshal f = Ok (paa_octets f).
Proof.
  destruct f as [t v4 p v6]. unfold paa_ok, paa_marshal, paa_mto, paa_mlen, paa_octets.
  cbn [paa_type paa_v4 paa_prefix paa_v6]. intros (Ht & Hp & H).
  eight t Et.
  destruct Et as [-> | [-> | [-> | [-> | [-> | [-> | [-> | ->]]]]]]]; try reflexivity.
  - destruct H as ((b & -> & Hb) & -> & ->). destruct (octets4 b Hb) as (a & c & d & e & -> & _). reflexivity.
  - destruct H as (-> & (b & -> & Hb)).
    destruct (octets16 b Hb) as (b0 & b1 & b2 & b3 & b4 & b5 & b6 & b7 & b8 & b9 & b10 & b11 & b12 & b13 & b14 & b15 & ->).
    reflexivity.
  - destruct H as ((c & -> & Hc) & (b & -> & Hb)). destruct (octets4 c Hc) as (a & c' & d & e & -> & _).
    destruct (octets16 b Hb) as (b0 & b1 & b2 & b3 & b4 & b5 & b6 & b7 & b8 & b9 & b10 & b11 & b12 & b13 & b14 & b15 & ->).
    reflexivity.
Qed.
Lemma paa_parse_spec f rest : paa_ok f -> paa_parse (paa_octets f ++ rest) = Ok f.
Proof.
  destruct f as [t v4 p v6]. unfold paa_ok, paa_parse, paa_octets.
  cbn [paa_type paa_v4 paa_prefix paa_v6]. intros (Ht & Hp & H).
  eight t Et.
  destruct Et as [-> | [-> | [-> | [-> | [-> | [-> | [-> | ->]]]]]]];
  try (destruct H as (-> & -> & ->); reflexivity).
  - destruct H as ((b & -> & Hb) & -> & ->). destruct (octets4 b Hb) as (a & c & d & e & -> & _). reflexivity.
  - destruct H as (-> & (b & -> & Hb)).
    destruct (octets16 b Hb) as (b0 & b1 & b2 & b3 & b4 & b5 & b6 & b7 & b8 & b9 & b10 & b11 & b12 & b13 & b14 & b15 & ->).
    reflexivity.
  - destruct H as ((c & -> & Hc) & (b & -> & Hb)). destruct (octets4 c Hc) as (a & c' & d & e & -> & _).
    destruct (octets16 b Hb) as (b0 & b1 & b2 & b3 & b4 & b5 & b6 & b7 & b8 & b9 & b10 & b11 & b12 & b13 & b14 & b15 & ->).
    reflexivity.
Qed.
Ltac is_oct := eexists; split; [reflexivity|split; [reflexivity|repeat constructor; assumption]].
Lemma paa_parse_inv b f : bytes_ok b -> paa_parse b = Ok f ->
  paa_ok f /\ exists rest, clear_first 7 b = paa_octets f ++ rest.
Proof.
  intros Hb. unfold paa_parse. destruct b as [|x r]; [discriminate|]. run. bytes_split.
  cbn [clear_first]. pose proof (land7 x H) as Ht. set (t := N.land x 7) in *. clearbody t.
  unfold paa_ok, paa_octets. eight t Et.
  destruct Et as [-> | [-> | [-> | [-> | [-> | [-> | [-> | ->]]]]]]].
  1, 5, 6, 7, 8: intros Hf; injection Hf as <-; cbn; split; [repeat split; lia|exists r; reflexivity].
  - change (1 =? 1) with true. cbv iota.
    destruct r as [|a [|c [|d [|e r]]]]; try discriminate. run. bytes_split.
    intros Hf; injection Hf as <-; cbn. split; [repeat split; try lia; is_oct|exists r; reflexivity].
  - change (2 =? 1) with false. change (2 =? 2) with true. cbv iota.
    do 17 (destruct r as [|? r]; [run; discriminate|]). run. bytes_split.
    intros Hf; injection Hf as <-; cbn. split; [repeat split; try lia; is_oct|exists r; reflexivity].
  - change (3 =? 1) with false. change (3 =? 2) with false. change (3 =? 3) with true. cbv iota.
    do 21 (destruct r as [|? r]; [run; discriminate|]). run. bytes_split.
    intros Hf; injection Hf as <-; cbn. split; [repeat split; try lia; is_oct|exists r; reflexivity].
Qed.
Lemma paa_parse_safe b : safe (paa_parse b).
Proof. unfold paa_parse. safe_tac. Qed.
Lemma paa_codec : exact_codec paa_ok paa_octets (clear_first 7) paa_marshal paa_parse.
Proof.
  split; [exact paa_marshal_spec|]. split; [intros; apply paa_parse_spec; assumption|].
  split; [exact paa_parse_inv|exact paa_parse_safe].
Qed.
Lemma paa_octets_ok f : paa_ok f -> bytes_ok (paa_octets f) /\ (len (paa_octets f) <= 22)%nat.
Proof.
  destruct f as [t v4 p v6]. unfold paa_ok, paa_octets.
  cbn [paa_type paa_v4 paa_prefix paa_v6]. intros (Ht & Hp & H).
  eight t Et.
  destruct Et as [-> | [-> | [-> | [-> | [-> | [-> | [-> | ->]]]]]]];
  try (split; [repeat constructor; assumption|cbn; lia]).
  - destruct H as ((b & -> & Lb & Hb) & -> & ->). cbn. split; [|lia]. repeat (apply bytes_ok_cons; [assumption|]). assumption.
  - destruct H as (-> & (b & -> & Lb & Hb)). cbn. split; [|lia]. repeat (apply bytes_ok_cons; [assumption|]). assumption.
  - destruct H as ((c & -> & Lc & Hc) & (b & -> & Lb & Hb)). cbn. rewrite app_length. split; [|lia].
    repeat (apply bytes_ok_cons; [assumption|]). apply bytes_ok_app; assumption.
Qed.
Section G.
Context (g : N -> bool).
Lemma paa_made f : paa_ok f ->
  made g (new_or_nil g 79 (paa_marshal f)) 79 (paa_octets f) (new2 g 79 0 (paa_octets f)) /\
  paa_parse (i2_payload (new2 g 79 0 (paa_octets f))) = Ok f.
Proof.
  intros H. destruct (paa_octets_ok f H). split.
  - apply new_or_nil_made; [apply paa_marshal_spec; assumption|lia|assumption|lia].
  - cbn [new2 set_length2 i2_payload]. pose proof (paa_parse_spec f [] H) as E. rewrite app_nil_r in E. exact E.
Qed.
Lemma to4_is ip v : ip_arg_ok ip -> to4 ip = Some v -> is_octets 4 (Some v).
Proof. intros H E. exists v. split; [reflexivity|]. eapply to4_octets; eassumption. Qed.
Lemma to16_is ip v : ip_arg_ok ip -> to16 ip = Some v -> is_octets 16 (Some v).
Proof. intros H E. exists v. split; [reflexivity|]. eapply to16_octets; eassumption. Qed.
Lemma paa_v4_all ip v prefix : ip_arg_ok ip -> to4 ip = Some v ->
  exists i, made g (new_paa g ip prefix) 79 ([1] ++ v) i /\
    acc_ip i = Ok (Some v) /\ acc_ipv4 i = Ok v /\ acc_ipv6 i = Err EIEValueNotFound /\ (g 79 = false -> acc_pdn_type g i = Ok 1).
Proof.
  intros H E. set (f := Paa 1 (Some v) 0 None).
  assert (Hf : paa_ok f) by (repeat split; cbn; try lia; eapply to4_is; eassumption).
  destruct (paa_made f Hf) as [M P]. exists (new2 g 79 0 (paa_octets f)).
  assert (L : len v = 4%nat) by (eapply to4_octets; eassumption).
  split; [unfold new_paa; rewrite E; exact M|].
  unfold acc_ipv6, acc_pdn_type, value_u8.
  assert (A : acc_ip (new2 g 79 0 (paa_octets f)) = Ok (Some v)).
  { unfold acc_ip. change (paa_octets f) with ([1] ++ v) in *. ty. lens. cbn [i2_payload new2 set_length2] in P. rewrite P. reflexivity. }
  repeat split.
  - exact A.
  - unfold acc_ipv4. rewrite A. cbn [bind]. rewrite to4_4 by assumption. reflexivity.
  - change (paa_octets f) with ([1] ++ v) in *. ty. lens. cbn [i2_payload new2 set_length2] in P. rewrite P. reflexivity.
  - intros Hg. ty. rewrite Hg. reflexivity.
Qed.
Lemma paa_v6_all ip v prefix : ip_arg_ok ip -> to4 ip = None -> to16 ip = Some v -> prefix < 256 ->
  exists i, made g (new_paa g ip prefix) 79 ([2] ++ [prefix] ++ v) i /\
    acc_ip i = Ok (Some v) /\ acc_ipv6 i = Ok v /\ (g 79 = false -> acc_pdn_type g i = Ok 2).
Proof.
  intros H E4 E Hp. set (f := Paa 2 None prefix (Some v)).
  assert (Hf : paa_ok f) by (repeat split; cbn; try lia; eapply to16_is; eassumption).
  destruct (paa_made f Hf) as [M P]. exists (new2 g 79 0 (paa_octets f)).
  assert (L : len v = 16%nat) by (eapply to16_octets; eassumption).
  split; [unfold new_paa; rewrite E4, E; exact M|].
  unfold acc_ip, acc_ipv6, acc_pdn_type, value_u8.
  change (paa_octets f) with ([2] ++ [prefix] ++ v) in *. ty. lens. cbn [i2_payload new2 set_length2] in P.
  rewrite P. cbn [bind f paa_type paa_v6]. rewrite to16_16 by assumption. repeat split. intros ->. reflexivity.
Qed.
Lemma paa_dual_all ip4 ip6 v4 v6 prefix : ip_arg_ok ip4 -> ip_arg_ok ip6 ->
  to4 ip4 = Some v4 -> to16 ip6 = Some v6 -> prefix < 256 ->
  exists i, made g (new_paa_dual g ip4 ip6 prefix) 79 ([3] ++ [prefix] ++ v6 ++ v4) i /\
    acc_ip i = Ok (Some v4) /\ acc_ipv4 i = Ok v4 /\ acc_ipv6 i = Ok v6 /\ (g 79 = false -> acc_pdn_type g i = Ok 3).
Proof.
  intros H4 H6 E4 E6 Hp. set (f := Paa 3 (Some v4) prefix (Some v6)).
  assert (Hf : paa_ok f) by (split; [cbn; lia|]; split; [assumption|]; split; [apply (to4_is ip4)|apply (to16_is ip6)]; assumption).
  destruct (paa_made f Hf) as [M P]. exists (new2 g 79 0 (paa_octets f)).
  assert (L : len v6 = 16%nat) by (apply (to16_octets ip6); assumption).
  assert (L4 : len v4 = 4%nat) by (apply (to4_octets ip4); assumption).
  assert (Em : paa_marshal (Paa 3 ip4 prefix ip6) = paa_marshal f).
  { unfold paa_marshal, paa_mto, paa_mlen, f. cbn [paa_type paa_v4 paa_v6 paa_prefix].
    rewrite E4, E6, to4_4, to16_16 by assumption. reflexivity. }
  split; [unfold new_paa_dual; rewrite Em; exact M|].
  assert (A : acc_ip (new2 g 79 0 (paa_octets f)) = Ok (Some v4)).
  { unfold acc_ip. change (paa_octets f) with ([3] ++ [prefix] ++ v6 ++ v4) in *. ty. lens.
    cbn [i2_payload new2 set_length2] in P. rewrite P. reflexivity. }
  split; [exact A|]. split; [unfold acc_ipv4; rewrite A; cbn [bind]; rewrite to4_4 by assumption; reflexivity|].
  unfold acc_ipv6, acc_pdn_type, value_u8.
  change (paa_octets f) with ([3] ++ [prefix] ++ v6 ++ v4) in *. ty. lens. cbn [i2_payload new2 set_length2] in P.
  rewrite P. cbn [bind f paa_type paa_v6]. rewrite to16_16 by assumption. repeat split. intros ->. reflexivity.
Qed.
(** ** IP Address *)
Lemma ip_address_all ip : ip_arg_ok ip ->
  (forall v, to4 ip = Some v -> made g (Ok (Some (new_ip_address g ip))) 74 v (new_ip_address g ip) /\
     acc_ip (new_ip_address g ip) = Ok (Some v) /\ acc_ipv4 (new_ip_address g ip) = Ok v) /\
  (forall v, to4 ip = None -> to16 ip = Some v -> made g (Ok (Some (new_ip_address g ip))) 74 v (new_ip_address g ip) /\
     acc_ip (new_ip_address g ip) = Ok (Some v) /\ acc_ipv6 (new_ip_address g ip) = Ok v).
Proof.
  intros H. split.
  - intros v E. destruct (to4_octets ip v H E) as [L Hv]. unfold new_ip_address. rewrite E.
    split; [apply new2_made; [lia|assumption|lia]|].
    unfold acc_ipv4, acc_ip. ty. lens. cbn [bind]. rewrite to4_4 by assumption. auto.
  - intros v E4 E. destruct (to16_octets ip v H E) as [L Hv]. unfold new_ip_address. rewrite E4, E.
    split; [apply new2_made; [lia|assumption|lia]|].
    unfold acc_ipv6, acc_ip. ty. lens. cbn [bind orb]. rewrite to16_16 by assumption. auto.
Qed.
End G.
