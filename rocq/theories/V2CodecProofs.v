(** Proofs about V2Codec.v. *)
From Verif Require Import Base BaseLemmas Utils UtilsProofs V2IE V2IESpec V2IEProofs V2Codec CodecSpec.
Open Scope N_scope.
Open Scope list_scope.

(** ** Running code on lists whose first cells are known *)
Ltac run := cbn [bind idx nth_error slice slice_from slice_to set_idx on_slice on_slice_from copy_at
  copy_from go_copy zeros repeat firstn skipn Nat.leb Nat.ltb Nat.eqb Nat.sub Nat.add List.length app andb orb negb
  be16 be32 put16 put32 enc16 enc24 enc32 enc40 fst snd opt_bytes present ip_bytes b2n].
Ltac run_in H := cbn [bind idx nth_error slice slice_from slice_to set_idx on_slice on_slice_from copy_at
  copy_from go_copy zeros repeat firstn skipn Nat.leb Nat.ltb Nat.eqb Nat.sub Nat.add List.length app andb orb negb
  be16 be32 put16 put32 enc16 enc24 enc32 enc40 fst snd opt_bytes present ip_bytes b2n] in H.

Lemma Ok_inj {A} (a b : A) : Ok a = Ok b -> a = b.
Proof. congruence. Qed.
Lemma octets4 b : octets 4 b -> exists a c d e, b = [a; c; d; e] /\ a < 256 /\ c < 256 /\ d < 256 /\ e < 256.
Proof.
  intros [Hl Hb]. destruct b as [|a [|c [|d [|e [|]]]]]; try discriminate.
  unfold bytes_ok in Hb. rewrite !Forall_cons_iff in Hb. unfold is_byte in Hb.
  exists a, c, d, e. tauto.
Qed.
Lemma octets16 b : octets 16 b -> exists b0 b1 b2 b3 b4 b5 b6 b7 b8 b9 b10 b11 b12 b13 b14 b15,
  b = [b0; b1; b2; b3; b4; b5; b6; b7; b8; b9; b10; b11; b12; b13; b14; b15].
Proof.
  intros [Hl Hb]. do 16 (destruct b as [|? b]; [discriminate|]). destruct b; [|discriminate].
  repeat eexists.
Qed.

Lemma to4_octets ip v : (forall b, ip = Some b -> bytes_ok b) -> to4 ip = Some v -> octets 4 v.
Proof.
  intros Hb. destruct ip as [b|]; [|discriminate]. specialize (Hb b eq_refl). unfold to4.
  destruct (len b =? 4)%nat eqn:E. { intros H; injection H as <-. split; [lia|assumption]. }
  destruct ((len b =? 16)%nat && bytes_eqb (firstn 12 b) v4in6) eqn:F; [|discriminate].
  intros H. assert (v = skipn 12 b) as -> by congruence. apply andb_prop in F. destruct F. split; [rewrite skipn_length; lia|apply bytes_ok_skipn; assumption].
Qed.
Lemma to16_octets ip v : (forall b, ip = Some b -> bytes_ok b) -> to16 ip = Some v -> octets 16 v.
Proof.
  intros Hb. destruct ip as [b|]; [|discriminate]. specialize (Hb b eq_refl). unfold to16.
  destruct (len b =? 4)%nat eqn:E.
  { intros H. assert (v = v4in6 ++ b) as -> by congruence. split; [rewrite app_length; change (len v4in6) with 12%nat; lia|].
    apply bytes_ok_app; [|assumption]. apply bytes_okb_ok. reflexivity. }
  destruct (len b =? 16)%nat eqn:F; [|discriminate]. intros H; injection H as <-. split; [lia|assumption].
Qed.
Lemma to4_4 v : len v = 4%nat -> to4 (Some v) = Some v.
Proof. intros H. unfold to4. rewrite H. reflexivity. Qed.
Lemma to16_16 v : len v = 16%nat -> to16 (Some v) = Some v.
Proof. intros H. unfold to16. rewrite H. reflexivity. Qed.

(** ** Writing one field after the other into a buffer *)
Lemma w_start (b : bytes) : b = [] ++ skipn (len []) b.
Proof. reflexivity. Qed.
Lemma w_set done b i v : i = len done -> (i + 1 <= len b)%nat ->
  set_idx (done ++ skipn (len done) b) i v = Ok ((done ++ [v]) ++ skipn (len (done ++ [v])) b).
Proof. intros -> H. apply set_idx_writes. exact H. Qed.
Lemma w_on done b i hi f out : writes f out -> i = len done -> hi = (i + len out)%nat -> (hi <= len b)%nat ->
  on_slice (done ++ skipn (len done) b) i hi f = Ok ((done ++ out) ++ skipn (len (done ++ out)) b).
Proof. intros Hf -> -> H. apply on_slice_writes; auto. Qed.
Lemma w_copy done b i hi src : i = len done -> hi = (i + len src)%nat -> (hi <= len b)%nat ->
  copy_at (done ++ skipn (len done) b) i hi src = Ok ((done ++ src) ++ skipn (len (done ++ src)) b).
Proof. intros -> -> H. apply on_slice_writes; auto using go_copy_writes. Qed.
Lemma w_len done (b : bytes) : (len done <= len b)%nat -> len (done ++ skipn (len done) b) = len b.
Proof. rewrite app_length, skipn_length. lia. Qed.
Lemma w_copy_from done b i src : i = len done -> (i + len src <= len b)%nat ->
  copy_from (done ++ skipn (len done) b) i src = Ok ((done ++ src) ++ skipn (len (done ++ src)) b).
Proof.
  intros -> H. unfold copy_from, copy_at. rewrite w_len by lia.
  pose proof (on_slice_from_writes _ _ done b (go_copy_writes src) H) as E.
  unfold on_slice_from in E. rewrite w_len in E by lia. exact E.
Qed.
Lemma w_end done n : len done = n -> done ++ skipn (len done) (zeros n) = done.
Proof. intros <-. rewrite skipn_all2 by (rewrite len_zeros; lia). apply app_nil_r. Qed.
Ltac len_tac := rewrite ?app_length, ?len_zeros; cbn [List.length enc32 enc16 enc40 enc24]; lia.
Ltac wr :=
  first [ rewrite w_set by len_tac
        | rewrite (w_on _ _ _ _ _ _ (put16_writes _)) by len_tac
        | rewrite (w_on _ _ _ _ _ _ (put32_writes _)) by len_tac
        | rewrite w_copy by len_tac
        | rewrite w_copy_from by len_tac ]; cbn [bind].

Lemma bytes_ok_cons_inv x b : bytes_ok (x :: b) -> x < 256 /\ bytes_ok b.
Proof. apply Forall_cons_iff. Qed.
Ltac bytes_split :=
  repeat match goal with H : bytes_ok (_ :: _) |- _ => apply bytes_ok_cons_inv in H; destruct H end.
Lemma be32_of_cells a b c d : a < 256 -> b < 256 -> c < 256 -> d < 256 ->
  enc32 (a * 16777216 + b * 65536 + c * 256 + d) = [a; b; c; d] /\
  a * 16777216 + b * 65536 + c * 256 + d < 2 ^ 32.
Proof. intros. split; [apply enc32_be; assumption|]. change (2 ^ 32) with 4294967296. lia. Qed.
Ltac lens := repeat match goal with
  | |- context [(len ?o <? ?k)%nat] => rewrite (proj2 (Nat.ltb_ge (len o) k)) by (cbn [List.length app]; rewrite ?app_length; cbn [List.length]; lia)
  end.
Ltac ty := cbn [new2 set_length2 i2_type i2_payload]; repeat match goal with
  | |- context [N.eqb (N.pos ?a) (N.pos ?b)] =>
     let x := eval vm_compute in (N.eqb (N.pos a) (N.pos b)) in change (N.eqb (N.pos a) (N.pos b)) with x end; cbv iota.

Section G.
Context (g : N -> bool).

Lemma new2_made t v : t < 256 -> bytes_ok v -> (len v < N.to_nat 65536)%nat ->
  made g (Ok (Some (new2 g t 0 v))) t v (new2 g t 0 v).
Proof.
  intros Ht Hv Hl. repeat split. intros Hg. apply wf2_plain; auto; try reflexivity; unfold u16; lia.
Qed.
Lemma new_or_nil_made t r v : r = Ok v -> t < 256 -> bytes_ok v -> (len v < N.to_nat 65536)%nat ->
  made g (new_or_nil g t r) t v (new2 g t 0 v).
Proof. intros ->. apply new2_made. Qed.
Lemma typed_new2 {A} t (f : ie2 -> res A) v : typed t f (new2 g t 0 v) = f (new2 g t 0 v).
Proof. unfold typed. cbn. rewrite N.eqb_refl. reflexivity. Qed.
Lemma via_new2 {A} t (f : ie2 -> res A) v : via_context g t f (new2 g t 0 v) = f (new2 g t 0 v).
Proof. unfold via_context. cbn. rewrite N.eqb_refl. reflexivity. Qed.

End G.

(** ** F-TEID *)
Lemma top_bits x : x < 256 ->
  hasbit 7 (N.land x 192) = (128 <=? x) /\ hasbit 6 (N.land x 192) = (64 <=? x mod 128) /\
  N.land x 192 = 128 * b2n (128 <=? x) + 64 * b2n (64 <=? x mod 128) /\ N.land x 63 = x mod 64 /\
  hasbit 7 x = (128 <=? x) /\ hasbit 6 x = (64 <=? x mod 128).
Proof.
  intros Hx.
  pose proof (byte_sweep (fun x => Bool.eqb (hasbit 7 (N.land x 192)) (128 <=? x) &&
    Bool.eqb (hasbit 6 (N.land x 192)) (64 <=? x mod 128) &&
    (N.land x 192 =? 128 * b2n (128 <=? x) + 64 * b2n (64 <=? x mod 128)) &&
    (N.land x 63 =? x mod 64) && Bool.eqb (hasbit 7 x) (128 <=? x) && Bool.eqb (hasbit 6 x) (64 <=? x mod 128))) as H.
  cbv beta in H. specialize (H eq_refl x Hx).
  repeat (apply andb_prop in H; destruct H as [H ?]).
  repeat match goal with H : Bool.eqb _ _ = true |- _ => apply eqb_prop in H; rewrite H end.
  repeat match goal with H : (_ =? _) = true |- _ => apply N.eqb_eq in H; rewrite H end.
  auto 10.
Qed.
Lemma fteid_first (v4 v6 : option bytes) ift : ift < 64 ->
  let x := 128 * b2n (present v4) + 64 * b2n (present v6) + ift in
  x < 256 /\ (128 <=? x) = present v4 /\ (64 <=? x mod 128) = present v6 /\ x mod 64 = ift.
Proof. intros H x. unfold x. destruct v4, v6; cbn [present b2n]; repeat split; lia. Qed.
Lemma lor_sweep63 ift : ift < 64 ->
  N.lor ift 128 = 128 + ift /\ N.lor ift 64 = 64 + ift /\ N.lor (N.lor ift 128) 64 = 192 + ift.
Proof.
  intros H.
  pose proof (below_sweep 64 (fun i => (N.lor i 128 =? 128 + i) && (N.lor i 64 =? 64 + i) && (N.lor (N.lor i 128) 64 =? 192 + i))
    eq_refl ift H) as E. cbv beta in E. lia.
Qed.

Lemma fteid_marshal_spec f : fteid_ok f ->
  fteid_marshal f = Ok (fteid_octets (ft_if f) (ft_teid f) (ft_v4 f) (ft_v6 f)).
Proof.
  destruct f as [fl ift teid v4 v6]. unfold fteid_ok. cbn. intros (Hi & Ht & H4 & H6 & ->).
  destruct (lor_sweep63 ift Hi) as (L1 & L2 & L3).
  unfold fteid_marshal, fteid_mto, fteid_mlen, fteid_octets. cbn [ft_flags ft_v4 ft_v6 ft_if ft_teid].
  destruct v4 as [v4|], v6 as [v6|]; cbn [opt_octets present b2n opt_bytes] in *;
  try destruct (octets4 _ H4) as (a & c & d & e & -> & _);
  try destruct (octets16 _ H6) as (b0 & b1 & b2 & b3 & b4 & b5 & b6 & b7 & b8 & b9 & b10 & b11 & b12 & b13 & b14 & b15 & ->);
  cbn [to4 to16 List.length Nat.eqb];
  match goal with |- context [hasbit 7 ?n] => let x := eval vm_compute in (hasbit 7 n) in change (hasbit 7 n) with x end;
  match goal with |- context [hasbit 6 ?n] => let x := eval vm_compute in (hasbit 6 n) in change (hasbit 6 n) with x end;
  run; rewrite ?L3, ?L1, ?L2; match goal with |- Ok (?a :: _) = Ok (?b :: _) => replace b with a by lia end; reflexivity.
Qed.
Lemma enc32_back v : v < 2 ^ 32 ->
  v / 16777216 mod 256 * 16777216 + v / 65536 mod 256 * 65536 + v / 256 mod 256 * 256 + v mod 256 = v.
Proof. change (2 ^ 32) with 4294967296. lia. Qed.
Lemma fteid_parse_spec f rest : fteid_ok f -> 
  fteid_parse (fteid_octets (ft_if f) (ft_teid f) (ft_v4 f) (ft_v6 f) ++ rest) = Ok f.
Proof.
  destruct f as [fl ift teid v4 v6]. unfold fteid_ok. cbn [ft_flags ft_v4 ft_v6 ft_if ft_teid].
  intros (Hi & Ht & H4 & H6 & ->).
  destruct (fteid_first v4 v6 ift Hi) as (Hx & B7 & B6 & M).
  unfold fteid_parse, fteid_octets.
  set (x := 128 * b2n (present v4) + 64 * b2n (present v6) + ift) in *. clearbody x.
  destruct (top_bits x Hx) as (T7 & T6 & TF & TI & _).
  run. rewrite T7, T6, TF, TI, B7, B6, M, (enc32_back teid Ht).
  destruct v4 as [v4|], v6 as [v6|]; cbn [opt_octets present b2n opt_bytes] in *;
  try destruct (octets4 _ H4) as (a & c & d & e & -> & _);
  try destruct (octets16 _ H6) as (b0 & b1 & b2 & b3 & b4 & b5 & b6 & b7 & b8 & b9 & b10 & b11 & b12 & b13 & b14 & b15 & ->);
  run; reflexivity.
Qed.

Ltac octets_tac := split; [reflexivity|repeat constructor; assumption].
Lemma fteid_parse_inv b f : bytes_ok b -> fteid_parse b = Ok f ->
  fteid_ok f /\ exists rest, b = fteid_octets (ft_if f) (ft_teid f) (ft_v4 f) (ft_v6 f) ++ rest.
Proof.
  intros Hb. unfold fteid_parse.
  destruct (len b <? 5)%nat eqn:E; [discriminate|].
  destruct b as [|x [|t0 [|t1 [|t2 [|t3 r]]]]]; try discriminate. clear E. bytes_split.
  destruct (top_bits x H) as (T7 & T6 & TF & TI & _).
  run. rewrite T7, T6, TF, TI.
  destruct (be32_of_cells t0 t1 t2 t3) as [Et Lt]; try assumption. unfold enc32 in Et.
  set (teid := t0 * 16777216 + t1 * 65536 + t2 * 256 + t3) in *. clearbody teid.
  assert (Hx : x = 128 * b2n (128 <=? x) + 64 * b2n (64 <=? x mod 128) + x mod 64)
    by (destruct (128 <=? x) eqn:?, (64 <=? x mod 128) eqn:?; cbn [b2n]; lia).
  assert (Hm : x mod 64 < 64) by lia.
  set (p7 := 128 <=? x) in *. set (p6 := 64 <=? x mod 128) in *. set (m := x mod 64) in *.
  injection Et as E0 E1 E2 E3.
  clearbody p7 p6 m. subst x. unfold fteid_octets, fteid_ok.
  destruct p7; cbn [b2n].
  - destruct r as [|a [|c [|d [|e r]]]]; try discriminate. run.
    destruct p6.
    + do 16 (destruct r as [|? r]; [run; discriminate|]). run. bytes_split.
      intros Hf; injection Hf as <-. cbn [ft_flags ft_v4 ft_v6 ft_if ft_teid present b2n opt_bytes opt_octets].
      split; [repeat split; try assumption; repeat constructor; assumption|].
      exists r. run. rewrite E0, E1, E2, E3. reflexivity.
    + intros Hf; injection Hf as <-. bytes_split. cbn [ft_flags ft_v4 ft_v6 ft_if ft_teid present b2n opt_bytes opt_octets].
      split; [repeat split; try assumption; repeat constructor; assumption|].
      exists r. run. rewrite E0, E1, E2, E3. reflexivity.
  - destruct p6.
    + run. do 16 (destruct r as [|? r]; [run; discriminate|]). run. bytes_split.
      intros Hf; injection Hf as <-. cbn [ft_flags ft_v4 ft_v6 ft_if ft_teid present b2n opt_bytes opt_octets].
      split; [repeat split; try assumption; repeat constructor; assumption|].
      exists r. run. rewrite E0, E1, E2, E3. reflexivity.
    + run. intros Hf; injection Hf as <-. cbn [ft_flags ft_v4 ft_v6 ft_if ft_teid present b2n opt_bytes opt_octets].
      split; [repeat split; try assumption; repeat constructor; assumption|].
      exists r. run. rewrite E0, E1, E2, E3. reflexivity.
Qed.
Lemma fteid_parse_safe b : safe (fteid_parse b).
Proof. unfold fteid_parse. safe_tac. Qed.
Lemma fteid_codec : exact_codec fteid_ok
  (fun f => fteid_octets (ft_if f) (ft_teid f) (ft_v4 f) (ft_v6 f)) no_spare fteid_marshal fteid_parse.
Proof.
  split; [exact fteid_marshal_spec|]. split; [intros; apply fteid_parse_spec; assumption|].
  split; [exact fteid_parse_inv|exact fteid_parse_safe].
Qed.
Definition ip_arg_ok (ip : option bytes) : Prop := forall b, ip = Some b -> bytes_ok b.
Lemma to4_opt ip : ip_arg_ok ip -> opt_octets 4 (to4 ip).
Proof. intros H. destruct (to4 ip) eqn:E; [|exact Logic.I]. eapply to4_octets; eassumption. Qed.
Lemma to16_opt ip : ip_arg_ok ip -> opt_octets 16 (to16 ip).
Proof. intros H. destruct (to16 ip) eqn:E; [|exact Logic.I]. eapply to16_octets; eassumption. Qed.
Lemma to4_to4 ip : ip_arg_ok ip -> to4 (to4 ip) = to4 ip.
Proof. intros H. pose proof (to4_opt ip H) as O. destruct (to4 ip); [|reflexivity]. apply to4_4, O. Qed.
Lemma to16_to16 ip : ip_arg_ok ip -> to16 (to16 ip) = to16 ip.
Proof. intros H. pose proof (to16_opt ip H) as O. destruct (to16 ip); [|reflexivity]. apply to16_16, O. Qed.
Lemma opt_bytes_ok n o : opt_octets n o -> bytes_ok (opt_bytes o).
Proof. destruct o; cbn; [intros [_ H]; exact H|intros; constructor]. Qed.
Lemma fteid_octets_ok f : fteid_ok f ->
  bytes_ok (fteid_octets (ft_if f) (ft_teid f) (ft_v4 f) (ft_v6 f)) /\
  (5 <= len (fteid_octets (ft_if f) (ft_teid f) (ft_v4 f) (ft_v6 f)) <= 25)%nat.
Proof.
  destruct f as [fl ift teid v4 v6]. intros (Hi & Ht & H4 & H6 & _). cbn [ft_if ft_teid ft_v4 ft_v6] in *.
  destruct (fteid_first v4 v6 ift Hi) as (Hx & _).
  unfold fteid_octets. split.
  - repeat apply bytes_ok_app; eauto using opt_bytes_ok, enc32_ok. repeat constructor; assumption.
  - destruct v4 as [v4|], v6 as [v6|]; rewrite !app_length; cbn [opt_bytes opt_octets] in *;
    try destruct H4 as [-> _]; try destruct H6 as [-> _]; cbn; lia.
Qed.
Section G2.
Context (g : N -> bool).
Lemma fteid_all ift teid v4 v6 :
  ift < 64 -> teid < 2 ^ 32 -> ip_arg_ok v4 -> ip_arg_ok v6 ->
  exists i,
  made g (new_fteid g ift teid v4 v6) 87 (fteid_octets ift teid (to4 v4) (to16 v6)) i /\
  (exists f, acc_fteid i = Ok f /\ ft_if f = ift /\ ft_teid f = teid /\ ft_v4 f = to4 v4 /\ ft_v6 f = to16 v6) /\
  acc_if_type i = Ok ift /\ acc_teid i = Ok teid /\
  has_ipv4 i = present (to4 v4) /\ has_ipv6 i = present (to16 v6) /\
  (forall a, to4 v4 = Some a -> acc_ip i = Ok (Some a) /\ acc_ipv4 i = Ok a) /\
  (forall a, to16 v6 = Some a -> acc_ipv6 i = Ok a) /\
  (forall a, to4 v4 = None -> to16 v6 = Some a -> acc_ip i = Ok (Some a)) /\
  (to16 v6 = None -> acc_ipv6 i = Err EIEValueNotFound) /\
  (to4 v4 = None -> to16 v6 = None -> acc_ip i = Err EIEValueNotFound /\ acc_ipv4 i = Err EIEValueNotFound) /\
  (to4 v4 <> None \/ to16 v6 <> None -> acc_gre_key i = Ok teid).
Proof.
  intros Hi Ht H4 H6.
  set (f := FTeid (128 * b2n (present (to4 v4)) + 64 * b2n (present (to16 v6))) ift teid (to4 v4) (to16 v6)).
  assert (Hf : fteid_ok f) by (repeat split; cbn; auto using to4_opt, to16_opt).
  assert (En : new_fteid_fields ift teid v4 v6 = f).
  { unfold new_fteid_fields, f. f_equal. destruct (to4 v4), (to16 v6); reflexivity. }
  destruct (fteid_octets_ok f Hf) as [Ob Ol]. pose proof (fteid_parse_spec f [] Hf) as Ep.
  rewrite app_nil_r in Ep. cbn [ft_if ft_teid ft_v4 ft_v6 f] in *.
  destruct (fteid_first (to4 v4) (to16 v6) ift Hi) as (Hx & B7 & B6 & M).
  exists (new2 g 87 0 (fteid_octets ift teid (to4 v4) (to16 v6))).
  split. { unfold new_fteid. rewrite En. apply new_or_nil_made; [apply (fteid_marshal_spec f Hf)|lia|assumption|lia]. }
  set (o := fteid_octets ift teid (to4 v4) (to16 v6)) in *.
  assert (Eo : exists r, o = (128 * b2n (present (to4 v4)) + 64 * b2n (present (to16 v6)) + ift) :: enc32 teid ++ r)
    by (eexists; reflexivity).
  destruct Eo as [r Eo]. set (x := 128 * b2n (present (to4 v4)) + 64 * b2n (present (to16 v6)) + ift) in *.
  assert (Ex : has_ipv4 (new2 g 87 0 o) = present (to4 v4) /\ has_ipv6 (new2 g 87 0 o) = present (to16 v6)).
  { unfold has_ipv4, has_ipv6, has_ip_bit. cbn [new2 set_length2 i2_type i2_payload]. rewrite Eo. cbn [N.eqb].
    change (87 =? 87) with true. cbv iota. destruct (top_bits x Hx) as (_ & _ & _ & _ & -> & ->). auto. }
  destruct Ex as [Ex4 Ex6].
  assert (Hip : acc_ip (new2 g 87 0 o) = match to4 v4 with Some a => Ok (Some a) | None =>
     match to16 v6 with Some a => Ok (Some a) | None => Err EIEValueNotFound end end).
  { unfold acc_ip. rewrite Ex4, Ex6. cbn [new2 set_length2 i2_type i2_payload].
    rewrite (proj2 (Nat.ltb_ge (len o) 4)) by lia.
    change (87 =? 74) with false. change (87 =? 79) with false. change (87 =? 90) with false.
    change (87 =? 91) with false. change (87 =? 87) with true. cbv iota. rewrite Ep. cbn.
    destruct (to4 v4), (to16 v6); reflexivity. }
  assert (Hip6 : acc_ipv6 (new2 g 87 0 o) = match to16 v6 with Some a => Ok a | None => Err EIEValueNotFound end).
  { unfold acc_ipv6. rewrite Ex6. cbn [new2 set_length2 i2_type i2_payload].
    rewrite (proj2 (Nat.ltb_ge (len o) 4)) by lia.
    change (87 =? 74) with false. change (87 =? 79) with false. change (87 =? 90) with false.
    change (87 =? 91) with false. change (87 =? 87) with true. cbv iota. rewrite Ep. cbn [bind ft_v6 orb f].
    rewrite to16_to16 by assumption. destruct (to16 v6); reflexivity. }
  assert (Ht32 : be32 (enc32 teid) = Ok teid) by (apply be32_enc'; exact Ht).
  repeat split.
  - exists f. split; [|auto]. unfold acc_fteid. rewrite typed_new2. exact Ep.
  - unfold acc_if_type. rewrite typed_new2. cbn [new2 set_length2 i2_payload].
    rewrite (proj2 (Nat.ltb_ge (len o) 1)) by lia. rewrite Eo. run.
    destruct (top_bits x Hx) as (_ & _ & _ & -> & _). rewrite M. reflexivity.
  - unfold acc_teid. cbn [new2 set_length2 i2_payload i2_type].
    rewrite (proj2 (Nat.ltb_ge (len o) 5)) by lia. change (87 =? 87) with true. cbv iota.
    rewrite Eo. run. f_equal. apply enc32_back, Ht.
  - exact Ex4.
  - exact Ex6.
  - rewrite Hip, H. reflexivity.
  - unfold acc_ipv4. rewrite Hip, H. cbn [bind]. rewrite <- H, to4_to4 by assumption. rewrite H. reflexivity.
  - intros a H. rewrite Hip6, H. reflexivity.
  - intros a Ha Hb. rewrite Hip, Ha, Hb. reflexivity.
  - intros H. rewrite Hip6, H. reflexivity.
  - rewrite Hip, H, H0. reflexivity.
  - unfold acc_ipv4. rewrite Hip, H, H0. reflexivity.
  - intros H. unfold acc_gre_key. cbn [new2 set_length2 i2_payload i2_type].
    assert (L : (9 <= len o)%nat).
    { unfold o, fteid_octets. rewrite !app_length. cbn [List.length enc32].
      pose proof (to4_opt v4 H4) as O4. pose proof (to16_opt v6 H6) as O6.
      destruct (to4 v4), (to16 v6); cbn [opt_bytes opt_octets List.length] in *;
      try destruct O4 as [-> _]; try destruct O6 as [-> _]; try lia. destruct H; congruence. }
    rewrite (proj2 (Nat.ltb_ge (len o) 6)) by lia. change (87 =? 87) with true. cbv iota.
    rewrite Eo. run. f_equal. apply enc32_back, Ht.
Qed.
End G2.
