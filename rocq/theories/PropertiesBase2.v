(** Setters of headers and IEs, constants of the packages, plain accessors, generic messages
    and nil arguments. *)
From Coq Require Import String Lia.
From Verif Require Import Base BaseLemmas Utils UtilsProofs V2IE V2Header V1Header V0Header TvIE MsgModel V2Msg V1Msg V0Msg
  Msgs2Gen Msgs1Gen Msgs0Gen.
Open Scope N_scope.
Open Scope list_scope.

(** bit [k] of [f'] is [v], the other bits of the octet are those of [f] *)
Definition only_bit (f f' k : N) (v : bool) : Prop :=
  N.testbit f' k = v /\ forall j, j < 8 -> j <> k -> N.testbit f' j = N.testbit f j.
Definition only_bitb (f f' k : N) (v : bool) : bool :=
  Bool.eqb (N.testbit f' k) v && forallb (fun j => (j =? k) || Bool.eqb (N.testbit f' j) (N.testbit f j)) (below 8).
Lemma only_bitb_ok f f' k v : only_bitb f f' k v = true -> only_bit f f' k v.
Proof.
  unfold only_bitb. intros H. apply andb_prop in H as [H1 H2]. apply Bool.eqb_prop in H1. split; [exact H1|].
  intros j Lj D. rewrite forallb_forall in H2. specialize (H2 j (below_complete 8 j Lj)). apply N.eqb_neq in D. rewrite D in H2.
  now apply Bool.eqb_prop.
Qed.
(** big-endian value of octets *)
Definition number (b : bytes) : N := fold_left (fun a x => a * 256 + x) b 0.

(** ** C58: GTPv2 header *)
(** NewHeaderFlags: version in bits 8-6, P in bit 5, T in bit 4, the rest zero *)
Theorem C58_v2_header_flags : forall v p t,
  new_hdr2_flags v p t = v mod 8 * 32 + p mod 2 * 16 + t mod 2 * 8.
Proof.
  intros v p t. unfold new_hdr2_flags.
  change 7 with (N.ones 3). change 1 with (N.ones 1). rewrite !N.land_ones. change (2 ^ 3) with 8. change (2 ^ 1) with 2.
  assert (v mod 8 < 8) as A by (apply N.mod_lt; discriminate). assert (p mod 2 < 2) as B by (apply N.mod_lt; discriminate).
  assert (t mod 2 < 2) as C by (apply N.mod_lt; discriminate).
  generalize dependent (v mod 8). generalize dependent (p mod 2). generalize dependent (t mod 2). intros c C b B a A.
  assert (forallb (fun a => forallb (fun b => forallb (fun c =>
    u8 (N.lor (N.lor (N.shiftl a 5) (N.shiftl b 4)) (N.shiftl c 3)) =? a * 32 + b * 16 + c * 8) (below 2)) (below 2)) (below 8) = true) as K
    by (vm_compute; reflexivity).
  rewrite forallb_forall in K. specialize (K a (below_complete 8 a A)). rewrite forallb_forall in K. specialize (K b (below_complete 2 b B)).
  rewrite forallb_forall in K. specialize (K c (below_complete 2 c C)). now apply N.eqb_eq in K.
Qed.
(** GTPv1: version, PT, E, S, PN *)
Theorem C58_v1_header_flags : forall v p e s n,
  new_hdr1_flags v p e s n = v mod 8 * 32 + p mod 2 * 16 + e mod 2 * 4 + s mod 2 * 2 + n mod 2.
Proof.
  intros v p e s n. unfold new_hdr1_flags.
  change 7 with (N.ones 3). change 1 with (N.ones 1). rewrite !N.land_ones. change (2 ^ 3) with 8. change (2 ^ N.ones 1) with 2.
  change (N.ones 1) with 1. change (2 ^ 1) with 2.
  assert (v mod 8 < 8) as A by (apply N.mod_lt; discriminate). assert (p mod 2 < 2) as B by (apply N.mod_lt; discriminate).
  assert (e mod 2 < 2) as C by (apply N.mod_lt; discriminate). assert (s mod 2 < 2) as D by (apply N.mod_lt; discriminate).
  assert (n mod 2 < 2) as E by (apply N.mod_lt; discriminate).
  generalize dependent (v mod 8). generalize dependent (p mod 2). generalize dependent (e mod 2). generalize dependent (s mod 2).
  generalize dependent (n mod 2). intros x5 E x4 D x3 C x2 B x1 A.
  assert (forallb (fun a => forallb (fun b => forallb (fun c => forallb (fun d => forallb (fun e =>
    u8 (N.lor (N.lor (N.lor (N.lor (N.shiftl a 5) (N.shiftl b 4)) (N.shiftl c 2)) (N.shiftl d 1)) e) =? a * 32 + b * 16 + c * 4 + d * 2 + e)
      (below 2)) (below 2)) (below 2)) (below 2)) (below 8) = true) as K
    by (vm_compute; reflexivity).
  rewrite forallb_forall in K. specialize (K x1 (below_complete 8 x1 A)). rewrite forallb_forall in K. specialize (K x2 (below_complete 2 x2 B)).
  rewrite forallb_forall in K. specialize (K x3 (below_complete 2 x3 C)). rewrite forallb_forall in K. specialize (K x4 (below_complete 2 x4 D)).
  rewrite forallb_forall in K. specialize (K x5 (below_complete 2 x5 E)). now apply N.eqb_eq in K.
Qed.
(** GTPv0: version, PT, spare bits one, S *)
Theorem C58_v0_header_flags : forall v p s, hdr0_flags v p s = v mod 8 * 32 + p mod 2 * 16 + 14 + s mod 2.
Proof.
  intros v p t. unfold hdr0_flags.
  change 7 with (N.ones 3). change 1 with (N.ones 1). rewrite !N.land_ones. change (2 ^ 3) with 8. change (2 ^ 1) with 2.
  assert (v mod 8 < 8) as A by (apply N.mod_lt; discriminate). assert (p mod 2 < 2) as B by (apply N.mod_lt; discriminate).
  assert (t mod 2 < 2) as C by (apply N.mod_lt; discriminate).
  generalize dependent (v mod 8). generalize dependent (p mod 2). generalize dependent (t mod 2). intros c C b B a A.
  assert (forallb (fun a => forallb (fun b => forallb (fun c =>
    u8 (N.lor (N.lor (N.lor (N.shiftl a 5) (N.shiftl b 4)) c) 14) =? a * 32 + b * 16 + 14 + c) (below 2)) (below 2)) (below 8) = true) as K
    by (vm_compute; reflexivity).
  rewrite forallb_forall in K. specialize (K a (below_complete 8 a A)). rewrite forallb_forall in K. specialize (K b (below_complete 2 b B)).
  rewrite forallb_forall in K. specialize (K c (below_complete 2 c C)). now apply N.eqb_eq in K.
Qed.

(** the fields other than the flags *)
Definition rest2 (h : hdr2) := (h2_type h, h2_length h, h2_teid h, h2_seq h, h2_spare h, h2_payload h).
Theorem C58_v2_set_piggybacking : forall h v, h2_flags h < 256 ->
  only_bit (h2_flags h) (h2_flags (h2_set_piggy h v)) 4 (N.odd v) /\ rest2 (h2_set_piggy h v) = rest2 h /\
  h2_piggy (h2_set_piggy h v) = N.odd v.
Proof.
  intros h v L. unfold h2_piggy. cbn [h2_set_piggy h2_set_flags h2_flags]. change (N.land v 1) with (N.land v (N.ones 1)). rewrite N.land_ones.
  change (2 ^ 1) with 2. rewrite <- N.bit0_odd, N.bit0_eqb. assert (v mod 2 < 2) as B by (apply N.mod_lt; discriminate).
  generalize dependent (v mod 2). intros b B.
  assert (forallb (fun f => forallb (fun b =>
     let f' := N.lor (N.land f 239) (u8 (N.shiftl b 4)) in only_bitb f f' 4 (b =? 1) && Bool.eqb (N.land (N.shiftr f' 4) 1 =? 1) (b =? 1)) (below 2)) all_bytes = true) as K by (vm_compute; reflexivity).
  pose proof (byte_sweep _ K _ L) as Q. cbv beta in Q. rewrite forallb_forall in Q. specialize (Q b (below_complete 2 b B)).
  cbv zeta in Q. apply andb_prop in Q as [Q1 Q2]. apply only_bitb_ok in Q1. apply Bool.eqb_prop in Q2. split; [exact Q1|]. split; [reflexivity|exact Q2].
Qed.
Theorem C58_v2_set_teid : forall h t, h2_flags h < 256 ->
  only_bit (h2_flags h) (h2_flags (h2_set_teid h t)) 3 true /\ h2_has_teid (h2_set_teid h t) = true /\
  h2_get_teid (h2_set_teid h t) = t /\
  h2_type (h2_set_teid h t) = h2_type h /\ h2_seq (h2_set_teid h t) = h2_seq h /\ h2_spare (h2_set_teid h t) = h2_spare h /\
  h2_payload (h2_set_teid h t) = h2_payload h /\ h2_length (h2_set_teid h t) = h2_length h.
Proof.
  intros h t L. unfold h2_get_teid, h2_has_teid, h2_has_teid_f. cbn [h2_set_teid h2_flags h2_teid h2_type h2_seq h2_spare h2_payload h2_length].
  assert (forallb (fun f => let f' := N.lor f 8 in only_bitb f f' 3 true && (N.land (N.shiftr f' 3) 1 =? 1)) all_bytes = true) as K by (vm_compute; reflexivity).
  pose proof (byte_sweep _ K _ L) as Q. cbv beta zeta in Q. apply andb_prop in Q as [Q1 Q2]. apply only_bitb_ok in Q1. rewrite Q2. split; [exact Q1|]. now repeat split.
Qed.
(** SetTEID does not correct Length: a header that had no TEID is marshalled with a Length
    four octets short, and its receiver loses the end of the payload *)
Theorem C58_v2_set_teid_length_refuted : exists h w h', h = h2_set_teid (new_hdr2 (new_hdr2_flags 2 0 0) 1 0 7 [1; 2; 3; 4; 5]) 9 /\
  h2_marshal h = Ok w /\ h2_parse w = Ok h' /\ h2_teid h' = 9 /\ h2_payload h' = [1].
Proof. eexists. eexists. eexists. split; [reflexivity|]. split; [vm_compute; reflexivity|]. split; [vm_compute; reflexivity|]. split; reflexivity. Qed.
Theorem C58_v2_set_sequence : forall h n,
  h2_seq (h2_set_seq h n) = n /\ h2_flags (h2_set_seq h n) = h2_flags h /\ h2_type (h2_set_seq h n) = h2_type h /\
  h2_teid (h2_set_seq h n) = h2_teid h /\ h2_spare (h2_set_seq h n) = h2_spare h /\ h2_payload (h2_set_seq h n) = h2_payload h /\
  h2_length (h2_set_seq h n) = h2_length h.
Proof. intros. now repeat split. Qed.
(** SetMessagePriority takes the priority in the upper four bits, where MessagePriority
    returns it *)
Theorem C58_v2_set_priority : forall h p, h2_flags h < 256 -> p < 256 ->
  only_bit (h2_flags h) (h2_flags (h2_set_prio h p)) 2 true /\ h2_has_prio (h2_set_prio h p) = true /\
  h2_prio (h2_set_prio h p) = p / 16 * 16 /\ h2_spare (h2_set_prio h p) = p / 16 * 16 /\
  h2_type (h2_set_prio h p) = h2_type h /\ h2_seq (h2_set_prio h p) = h2_seq h /\ h2_teid (h2_set_prio h p) = h2_teid h /\
  h2_payload (h2_set_prio h p) = h2_payload h /\ h2_length (h2_set_prio h p) = h2_length h.
Proof.
  intros h p L B. unfold h2_has_prio, h2_prio. cbn [h2_set_prio h2_flags h2_teid h2_type h2_seq h2_spare h2_payload h2_length].
  assert (forallb (fun f => let f' := N.lor f 4 in only_bitb f f' 2 true && (N.land (N.shiftr f' 2) 1 =? 1)) all_bytes = true) as K by (vm_compute; reflexivity).
  assert (forallb (fun p => (N.land p 240 =? p / 16 * 16) && (N.land (N.land p 240) 240 =? p / 16 * 16)) all_bytes = true) as K2 by (vm_compute; reflexivity).
  pose proof (byte_sweep _ K _ L) as Q. cbv beta zeta in Q. apply andb_prop in Q as [Q1 Q2]. apply only_bitb_ok in Q1.
  pose proof (byte_sweep _ K2 _ B) as R. cbv beta in R. apply andb_prop in R as [R1 R2]. apply N.eqb_eq in R1, R2. rewrite R2, R1, Q2. split; [exact Q1|]. now repeat split.
Qed.
(** hence a priority of 0 to 15, as TS 29.274 5.4 has it, is lost *)
Theorem C58_v2_priority_refuted : forall h p, p < 16 -> h2_prio (h2_set_prio h p) = 0.
Proof.
  intros h p L. unfold h2_prio. cbn [h2_set_prio h2_spare].
  assert (forallb (fun p => N.land (N.land p 240) 240 =? 0) (below 16) = true) as K by (vm_compute; reflexivity).
  now apply N.eqb_eq, (below_sweep 16 (fun p => N.land (N.land p 240) 240 =? 0) K).
Qed.
Example C58_v2_example : let h := new_hdr2 64 1 0 7 [1] in h2_flags h < 256 /\ h2_flags (h2_set_piggy h 1) = 80 /\
  h2_flags (h2_set_teid h 9) = 72 /\ h2_flags (h2_set_prio h 176) = 68 /\ h2_prio (h2_set_prio h 176) = 176.
Proof. now vm_compute. Qed.

(** ** C58: GTPv1 header *)
Definition rest1 (h : hdr1) := (h1_type h, h1_exts h, h1_payload h).
(** the Length field is what follows the first eight octets *)
Definition length_right (h : hdr1) : Prop := h1_length h = N.of_nat (h1_mlen h - 8) mod 65536.
Theorem C58_v1_set_sequence : forall h n, h1_flags h < 256 -> let h' := h1_set_seq h n in
  only_bit (h1_flags h) (h1_flags h') 1 true /\ h1_seq h' = n /\ h1_teid h' = h1_teid h /\ h1_npdu h' = h1_npdu h /\ h1_next h' = h1_next h /\
  rest1 h' = rest1 h /\ length_right h'.
Proof.
  intros h n L. cbv zeta. cbn [h1_set_seq h1_set_length h1_set_len h1_flags h1_teid h1_type h1_seq h1_npdu h1_next h1_exts h1_payload h1_length].
  assert (forallb (fun f => only_bitb f (N.lor f 2) 1 true) all_bytes = true) as K by (vm_compute; reflexivity).
  pose proof (byte_sweep _ K _ L) as Q. cbv beta in Q. apply only_bitb_ok in Q. split; [exact Q|]. now repeat split.
Qed.
Theorem C58_v1_set_npdu : forall h n, h1_flags h < 256 -> let h' := h1_set_npdu h n in
  only_bit (h1_flags h) (h1_flags h') 0 true /\ h1_npdu h' = n /\ h1_teid h' = h1_teid h /\ h1_seq h' = h1_seq h /\ h1_next h' = h1_next h /\
  rest1 h' = rest1 h /\ length_right h'.
Proof.
  intros h n L. cbv zeta. cbn [h1_set_npdu h1_set_length h1_set_len h1_flags h1_teid h1_type h1_seq h1_npdu h1_next h1_exts h1_payload h1_length].
  assert (forallb (fun f => only_bitb f (N.lor f 1) 0 true) all_bytes = true) as K by (vm_compute; reflexivity).
  pose proof (byte_sweep _ K _ L) as Q. cbv beta in Q. apply only_bitb_ok in Q. split; [exact Q|]. now repeat split.
Qed.
(** SetTEID also sets bit 4 of the flags, which is spare in GTPv1 *)
Theorem C58_v1_set_teid : forall h n, h1_flags h < 256 -> let h' := h1_set_teid h n in
  h1_teid h' = n /\ h1_seq h' = h1_seq h /\ h1_npdu h' = h1_npdu h /\ h1_next h' = h1_next h /\ rest1 h' = rest1 h /\
  h1_length h' = h1_length h /\ only_bit (h1_flags h) (h1_flags h') 3 true.
Proof.
  intros h n L. cbv zeta. cbn [h1_set_teid h1_set_length h1_set_len h1_flags h1_teid h1_type h1_seq h1_npdu h1_next h1_exts h1_payload h1_length].
  assert (forallb (fun f => only_bitb f (N.lor f 8) 3 true) all_bytes = true) as K by (vm_compute; reflexivity).
  pose proof (byte_sweep _ K _ L) as Q. cbv beta in Q. apply only_bitb_ok in Q. repeat (split; [reflexivity|]). exact Q.
Qed.
Theorem C58_v1_spare_bit_refuted : exists h, N.testbit (h1_flags h) 3 = false /\ N.testbit (h1_flags (h1_set_teid h 9)) 3 = true.
Proof. exists (new_hdr1 48 255 1 0 []). now vm_compute. Qed.
(** SetNextExtensionHeaderType sets E but leaves Length alone *)
Theorem C58_v1_set_next : forall h n, h1_flags h < 256 -> let h' := h1_set_next h n in
  only_bit (h1_flags h) (h1_flags h') 2 true /\ h1_next h' = n /\ h1_teid h' = h1_teid h /\ h1_seq h' = h1_seq h /\ h1_npdu h' = h1_npdu h /\
  rest1 h' = rest1 h /\ h1_length h' = h1_length h.
Proof.
  intros h n L. cbv zeta. cbn [h1_set_next h1_set_length h1_set_len h1_flags h1_teid h1_type h1_seq h1_npdu h1_next h1_exts h1_payload h1_length].
  assert (forallb (fun f => only_bitb f (N.lor f 4) 2 true) all_bytes = true) as K by (vm_compute; reflexivity).
  pose proof (byte_sweep _ K _ L) as Q. cbv beta in Q. apply only_bitb_ok in Q. split; [exact Q|]. now repeat split.
Qed.
Example C58_v1_example : let h := new_hdr1 48 255 1 0 [69] in h1_flags h < 256 /\ h1_flags (h1_set_seq h 3) = 50 /\
  h1_length (h1_set_seq h 3) = 5 /\ h1_flags (h1_set_npdu h 3) = 49.
Proof. now vm_compute. Qed.

(** ** C58: IEs *)
Theorem C58_v2_set_instance : forall i n, i2_instance (set_instance2 i n) = n mod 16 /\ i2_inst (set_instance2 i n) = n mod 16 /\
  i2_type (set_instance2 i n) = i2_type i /\ i2_length (set_instance2 i n) = i2_length i /\
  i2_payload (set_instance2 i n) = i2_payload i /\ i2_children (set_instance2 i n) = i2_children i.
Proof.
  intros [t l x p c] n. unfold i2_instance. cbn [set_instance2 i2_inst i2_type i2_length i2_payload i2_children].
  change 15 with (N.ones 4). rewrite !N.land_ones. change (2 ^ 4) with 16. rewrite N.mod_mod by discriminate. now repeat split.
Qed.
(** the grouped IE types of TS 29.274 8.1: Bearer Context, PDN Connection, Overload Control
    Information, Load Control Information, Remote UE Context, SCEF PDN Connection, V2X
    Context, PC5 QoS Parameters *)
Definition grouped_types : list N := [93; 109; 180; 181; 191; 195; 208; 209].
Theorem C58_v2_grouped_types : forall t, default_grouped t = true <-> In t grouped_types.
Proof.
  intros t. unfold default_grouped. rewrite existsb_exists. split.
  - intros (x & I & E). apply N.eqb_eq in E. subst. exact I.
  - intros I. exists t. split; [exact I|apply N.eqb_refl].
Qed.
(** sizes of the TV IEs of TS 29.060 7.7 (table 37) and TS 09.60 7.9 (table 37): type, octets
    of the value *)
Definition tv_sizes1 : list (N * nat) := map (fun e => (fst e, N.to_nat (snd e)))
  [(1, 1); (2, 8); (3, 6); (4, 4); (5, 4); (8, 1); (9, 28); (11, 1); (12, 3); (13, 1); (14, 1); (15, 1); (16, 4); (17, 4);
   (18, 5); (19, 1); (20, 1); (21, 1); (22, 9); (23, 1); (24, 1); (25, 2); (26, 2); (27, 2); (28, 2); (29, 1); (127, 4)].
Definition tv_sizes0 : list (N * nat) := map (fun e => (fst e, N.to_nat (snd e)))
  [(1, 1); (2, 8); (3, 6); (4, 4); (5, 4); (6, 3); (8, 1); (9, 28); (11, 1); (12, 3); (13, 1); (14, 1); (15, 1); (16, 2); (17, 2);
   (18, 3); (19, 1); (127, 4)].
(** all but Tunnel Endpoint Identifier Data II (18), which has five octets *)
Theorem C58_v1_tv_sizes_partial : forall t n, t <> 0 -> t <> 18 -> (tv1 t = Some n <-> In (t, n) tv_sizes1).
Proof.
  intros t n Z D. destruct (N.lt_ge_cases t 128) as [L|G].
  - assert (forallb (fun t => (t =? 0) || (t =? 18) ||
        match tv1 t with Some n => existsb (fun e => (fst e =? t) && (snd e =? n)%nat) tv_sizes1 && forallb (fun e => negb (fst e =? t) || (snd e =? n)%nat) tv_sizes1
                       | None => forallb (fun e => negb (fst e =? t)) tv_sizes1 end) (below 128) = true) as K by (vm_compute; reflexivity).
    pose proof (below_sweep 128 _ K t L) as Q. cbv beta in Q. apply N.eqb_neq in Z, D. rewrite Z, D in Q. cbn [orb] in Q.
    destruct (tv1 t) as [k|].
    + apply andb_prop in Q as [Q1 Q2]. split.
      * intros [= <-]. apply existsb_exists in Q1 as ([x y] & I & E). apply andb_prop in E as [E1 E2]. apply N.eqb_eq in E1. apply Nat.eqb_eq in E2.
        cbn in E1, E2. subst. exact I.
      * intros I. rewrite forallb_forall in Q2. specialize (Q2 _ I). cbn [fst snd] in Q2. rewrite N.eqb_refl in Q2. cbn in Q2. apply Nat.eqb_eq in Q2. now subst.
    + split; [discriminate|]. intros I. rewrite forallb_forall in Q. specialize (Q _ I). cbn [fst] in Q. rewrite N.eqb_refl in Q. discriminate.
  - split.
    + intros E. exfalso. unfold tv1 in E. assert (forallb (fun e => fst e <? 128) tv_map1 = true) as K by reflexivity.
      revert E K. generalize tv_map1. induction l as [|[x y] l IH]; [discriminate|]. cbn. destruct (t =? x) eqn:X.
      * apply N.eqb_eq in X. subst. intros _ H. apply andb_prop in H as [H _]. apply N.ltb_lt in H. lia.
      * intros E H. apply andb_prop in H as [_ H]. auto.
    + intros I. exfalso. assert (forallb (fun e => fst e <? 128) tv_sizes1 = true) as K by reflexivity. rewrite forallb_forall in K.
      specialize (K _ I). cbn in K. apply N.ltb_lt in K. lia.
Qed.
Theorem C58_v1_teid_data_ii_refuted : tv1 18 = Some 4%nat /\ In (18, 5%nat) tv_sizes1.
Proof. split; [reflexivity|]. vm_compute. tauto. Qed.
Theorem C58_v0_tv_sizes : forall t n, t <> 0 -> (tv0 t = Some n <-> In (t, n) tv_sizes0).
Proof.
  intros t n Z. destruct (N.lt_ge_cases t 128) as [L|G].
  - assert (forallb (fun t => (t =? 0) ||
        match tv0 t with Some n => existsb (fun e => (fst e =? t) && (snd e =? n)%nat) tv_sizes0 && forallb (fun e => negb (fst e =? t) || (snd e =? n)%nat) tv_sizes0
                       | None => forallb (fun e => negb (fst e =? t)) tv_sizes0 end) (below 128) = true) as K by (vm_compute; reflexivity).
    pose proof (below_sweep 128 _ K t L) as Q. cbv beta in Q. apply N.eqb_neq in Z. rewrite Z in Q. cbn [orb] in Q.
    destruct (tv0 t) as [k|].
    + apply andb_prop in Q as [Q1 Q2]. split.
      * intros [= <-]. apply existsb_exists in Q1 as ([x y] & I & E). apply andb_prop in E as [E1 E2]. apply N.eqb_eq in E1. apply Nat.eqb_eq in E2.
        cbn in E1, E2. subst. exact I.
      * intros I. rewrite forallb_forall in Q2. specialize (Q2 _ I). cbn [fst snd] in Q2. rewrite N.eqb_refl in Q2. cbn in Q2. apply Nat.eqb_eq in Q2. now subst.
    + split; [discriminate|]. intros I. rewrite forallb_forall in Q. specialize (Q _ I). cbn [fst] in Q. rewrite N.eqb_refl in Q. discriminate.
  - split.
    + intros E. exfalso. unfold tv0 in E. assert (forallb (fun e => fst e <? 128) tv_map0 = true) as K by reflexivity.
      revert E K. generalize tv_map0. induction l as [|[x y] l IH]; [discriminate|]. cbn. destruct (t =? x) eqn:X.
      * apply N.eqb_eq in X. subst. intros _ H. apply andb_prop in H as [H _]. apply N.ltb_lt in H. lia.
      * intros E H. apply andb_prop in H as [_ H]. auto.
    + intros I. exfalso. assert (forallb (fun e => fst e <? 128) tv_sizes0 = true) as K by reflexivity. rewrite forallb_forall in K.
      specialize (K _ I). cbn in K. apply N.ltb_lt in K. lia.
Qed.
Example C58_ie_example : default_grouped 93 = true /\ default_grouped 92 = false /\ tv1 9 = Some 28%nat /\ tv0 18 = Some 3%nat /\
  i2_instance (set_instance2 (IE2 73 1 0 [5] []) 17) = 1.
Proof. now vm_compute. Qed.

(** ** C56: ValueAsUint8 .. ValueAsUint64 *)
Lemma value_at (g : N -> bool) (i : ie2) (k : nat) (f : bytes -> res N) : (1 <= k)%nat -> (forall s, len s = k -> f s = Ok (number s)) ->
  (if g (i2_type i) then Err EInvalidType else if (len (i2_payload i) <? k)%nat then Err EUnexpectedEOF else do s <- slice (i2_payload i) 0 k; f s) =
  (if g (i2_type i) then Err EInvalidType else if (len (i2_payload i) <? k)%nat then Err EUnexpectedEOF else Ok (number (firstn k (i2_payload i)))).
Proof.
  intros K F. destruct (g (i2_type i)); [reflexivity|]. destruct (len (i2_payload i) <? k)%nat eqn:E; [reflexivity|]. apply Nat.ltb_ge in E.
  rewrite slice_ok by lia. cbn [bind skipn]. rewrite Nat.sub_0_r. apply F.
  rewrite firstn_length. lia.
Qed.
Theorem C56_value_as_uint : forall (g : N -> bool) (i : ie2),
  let v (k : nat) : res N := if g (i2_type i) then Err EInvalidType else if (len (i2_payload i) <? k)%nat then Err EUnexpectedEOF
             else Ok (number (firstn k (i2_payload i))) in
  value_u8 g i = v 1%nat /\ value_u16 g i = v 2%nat /\ value_u32 g i = v 4%nat /\ value_u64 g i = v 8%nat.
Proof.
  intros g i v. split; [|split; [|split]].
  - unfold value_u8, v. destruct (g (i2_type i)); [reflexivity|]. destruct (i2_payload i); reflexivity.
  - apply value_at; [lia|]. intros s H. destruct s as [|a [|b [|]]]; try discriminate. cbn; first [reflexivity|f_equal; lia].
  - apply value_at; [lia|]. intros s H. do 5 (destruct s as [|? s]; try discriminate). cbn; first [reflexivity|f_equal; lia].
  - apply value_at; [lia|]. intros s H. do 9 (destruct s as [|? s]; try discriminate). cbn; first [reflexivity|f_equal; lia].
Qed.
Example C56_value_example : value_u32 default_grouped (IE2 94 4 0 [1; 2; 3; 4] []) = Ok 16909060 /\
  value_u32 default_grouped (IE2 94 3 0 [1; 2; 3] []) = Err EUnexpectedEOF /\ value_u8 default_grouped (IE2 93 1 0 [1] []) = Err EInvalidType.
Proof. now vm_compute. Qed.

(** ** C26: ParseECI *)
Theorem C26_parse_eci : forall eci, eci < 4294967296 -> parse_eci eci = Ok (eci / 256, eci mod 256).
Proof. exact parse_eci_spec. Qed.
Example C26_parse_eci_example : parse_eci 66051 = Ok (258, 3).
Proof. now vm_compute. Qed.

(** ** C17, C18, C15: what the constructors put into the header *)
(** every message has the sequence number it was given, but End Marker, whose constructor takes none *)
Definition no_sequence1 : list string := ["EndMarker"]%string.
Theorem C17_v1_new_header : forall d teid seq ies m, In d all_msgs1 -> v1_new d teid seq ies = Ok m ->
  h1_seq (m_hdr m) = (if existsb (String.eqb (md_name d)) no_sequence1 then 0 else seq) /\
  (h1_teid (m_hdr m) = teid \/ h1_teid (m_hdr m) = 0 /\ In (md_name d) ["EchoRequest"; "EchoResponse"; "EndMarker"]%string) /\
  h1_npdu (m_hdr m) = 0 /\ h1_exts (m_hdr m) = [] /\ h1_payload (m_hdr m) = [].
Proof.
  intros d teid seq ies m I H. unfold v1_new, msg_new in H. apply bind_ok_inv in H as (fs & _ & H).
  unfold msg_set_length in H. apply bind_ok_inv in H as (n & _ & H). injection H as <-. cbn [m_hdr ho_set_len ho1].
  revert I. unfold all_msgs1. cbn [In]. intros I.
  repeat (destruct I as [<-|I]; [cbn; repeat split; tauto|]). contradiction.
Qed.

(** Supported Extension Headers Notification is given a sequence number but no flag for it *)
Definition no_sequence_flag1 : list string := ["EndMarker"; "SupportedExtensionHeaderNotification"]%string.
Theorem C17_v1_new_flags : forall d teid seq ies m, In d all_msgs1 -> v1_new d teid seq ies = Ok m ->
  h1_flags (m_hdr m) = if existsb (String.eqb (md_name d)) no_sequence_flag1 then new_hdr1_flags 1 1 0 0 0 else new_hdr1_flags 1 1 0 1 0.
Proof.
  intros d teid seq ies m I H. unfold v1_new, msg_new in H. apply bind_ok_inv in H as (fs & _ & H).
  unfold msg_set_length in H. apply bind_ok_inv in H as (n & _ & H). injection H as <-. cbn [m_hdr ho_set_len ho1].
  revert I. unfold all_msgs1. cbn [In]. intros I.
  repeat (destruct I as [<-|I]; [reflexivity|]). contradiction.
Qed.
Example C17_new_header_example : exists m, v1_new Msgs1Gen.d_ErrorIndication 5 6 [] = Ok m /\ h1_seq (m_hdr m) = 6 /\ h1_teid (m_hdr m) = 5.
Proof. eexists. split; [vm_compute; reflexivity|]. now split. Qed.
Theorem C18_v0_new_header : forall d seq label tid ies m, In d all_msgs0 -> v0_new d seq label tid ies = Ok m ->
  h0_seq (m_hdr m) = seq /\ h0_label (m_hdr m) = label /\ h0_tid (m_hdr m) = tid /\ h0_sndcp (m_hdr m) = 255 /\
  h0_flags (m_hdr m) = hdr0_flags 0 1 0 /\ h0_payload (m_hdr m) = [].
Proof.
  intros d seq label tid ies m I H. unfold v0_new, msg_new in H. apply bind_ok_inv in H as (fs & _ & H).
  unfold msg_set_length in H. apply bind_ok_inv in H as (n & _ & H). injection H as <-. cbn [m_hdr ho_set_len ho0].
  revert I. unfold all_msgs0. cbn [In]. intros I.
  repeat (destruct I as [<-|I]; [repeat split|]). contradiction.
Qed.
(** the path management messages have no TEID (TS 29.274 5.5.1); Version Not Supported
    Indication has one nevertheless *)
Definition no_teid2 : list string := ["EchoRequest"; "EchoResponse"]%string.
Theorem C15_v2_new_header : forall g d teid seq ies m, In d all_msgs2 -> v2_new g d teid seq ies = Ok m ->
  let no := existsb (String.eqb (md_name d)) no_teid2 in
  h2_seq (m_hdr m) = seq /\ h2_get_teid (m_hdr m) = (if no then 0 else teid) /\ h2_spare (m_hdr m) = 0 /\
  h2_flags (m_hdr m) = new_hdr2_flags 2 0 (if no then 0 else 1) /\ h2_payload (m_hdr m) = [].
Proof.
  intros g d teid seq ies m I H. unfold v2_new, msg_new in H. apply bind_ok_inv in H as (fs & _ & H).
  unfold msg_set_length in H. apply bind_ok_inv in H as (n & _ & H). injection H as <-. cbn [m_hdr ho_set_len ho2].
  revert I. unfold all_msgs2. cbn [In]. intros I.
  repeat (destruct I as [<-|I]; [now repeat split|]). contradiction.
Qed.
Theorem C15_version_not_supported_teid_refuted : forall g teid seq ies m,
  v2_new g Msgs2Gen.d_VersionNotSupportedIndication teid seq ies = Ok m -> h2_has_teid (m_hdr m) = true.
Proof.
  intros g teid seq ies m H. apply C15_v2_new_header in H; [|vm_compute; tauto]. destruct H as (_ & _ & _ & H & _).
  unfold h2_has_teid. rewrite H. reflexivity.
Qed.

(** ** Nil arguments *)
Definition present {A} (l : list (option A)) : list (option A) := filter (fun o => match o with Some _ => true | None => false end) l.
Lemma table_nil {I} (io : ieops I) t l : t_nilskip t = true -> forall fs, run_table io t l fs = run_table io t (present l) fs.
Proof. intros N0. induction l as [|[i|] l IH]; intros fs; [reflexivity|cbn; apply IH|cbn; rewrite N0; apply IH]. Qed.
(** New ignores nil IEs, for every message of the three versions *)
Theorem C20_new_ignores_nil :
  (forall g d teid seq ies, In d all_msgs2 -> v2_new g d teid seq ies = v2_new g d teid seq (present ies)) /\
  (forall d teid seq ies, In d all_msgs1 -> v1_new d teid seq ies = v1_new d teid seq (present ies)) /\
  (forall d seq label tid ies, In d (d_Generic0 :: all_msgs0) -> v0_new d seq label tid ies = v0_new d seq label tid (present ies)).
Proof.
  split; [|split].
  - intros g d teid seq ies I. unfold v2_new, msg_new. rewrite table_nil; [reflexivity|].
    assert (forallb (fun d => t_nilskip (md_new d)) all_msgs2 = true) as K by (vm_compute; reflexivity). rewrite forallb_forall in K. auto.
  - intros d teid seq ies I. unfold v1_new, msg_new. rewrite table_nil; [reflexivity|].
    assert (forallb (fun d => t_nilskip (md_new d)) all_msgs1 = true) as K by (vm_compute; reflexivity). rewrite forallb_forall in K. auto.
  - intros d seq label tid ies I. unfold v0_new, msg_new. rewrite table_nil; [reflexivity|].
    assert (forallb (fun d => t_nilskip (md_new d)) (d_Generic0 :: all_msgs0) = true) as K by (vm_compute; reflexivity). rewrite forallb_forall in K. auto.
Qed.

(** a message without the nil elements of its list fields *)
Definition no_nil {I H} (m : @msg I H) : @msg I H := Msg (m_hdr m) (map (fun p => (fst p, present (snd p))) (m_fs m)).
(** the octets marshalled *)
Definition octets_of {M} (r : res (bytes * M)) : res bytes := do x <- r; Ok (fst x).
(** a single-valued field is nil or holds one IE *)
Definition single_fields {I} (d : mdesc) (m : @fmap I) : Prop :=
  forall f a, In (MSingle f a) (md_steps d) \/ In (LSingle f) (md_lens d) -> fget m f = [] \/ exists i, fget m f = [Some i].
Definition skips_nil (d : mdesc) : bool :=
  (forallb (fun s => match s with MList _ sk _ => sk | _ => true end) (md_steps d) &&
   forallb (fun s => match s with LList _ sk => sk | _ => true end) (md_lens d))%bool.
Section NoNil.
Context {I H : Type} (io : ieops I) (ho : hdops H).
Lemma fget_present (fs : @fmap I) f : fget (map (fun p => (fst p, present (snd p))) fs) f = present (fget fs f).
Proof. induction fs as [|[k v] fs IH]; [reflexivity|]. cbn. now destruct (String.eqb k f). Qed.
Lemma len_present l : len_list io true (present l) = len_list io true l.
Proof. induction l as [|[i|] l IH]; [reflexivity|change (present (Some i :: l)) with (Some i :: present l); cbn [len_list]; now rewrite IH|exact IH]. Qed.
Lemma mto_present adv l : forall off p, mto_list io true adv (present l) off p = mto_list io true adv l off p.
Proof.
  induction l as [|[i|] l IH]; intros off p; [reflexivity| |apply IH]. change (present (Some i :: l)) with (Some i :: present l). cbn [mto_list]. destruct (mto_one io i adv off p) as [[p' off']| |]; [|reflexivity|reflexivity].
  cbn. apply IH.
Qed.
Variable (d : mdesc) (m : @msg I H).
Hypothesis (SK : skips_nil d = true) (SF : single_fields d (m_fs m)).
Lemma mlen_no_nil h : msg_mlen io ho d (Msg h (m_fs (no_nil m))) = msg_mlen io ho d (Msg h (m_fs m)).
Proof.
  unfold msg_mlen. cbn [m_fs no_nil m_hdr]. f_equal. apply andb_prop in SK as [_ SK'].
  assert (forall f, In (LSingle f) (md_lens d) -> fget (m_fs m) f = [] \/ exists i, fget (m_fs m) f = [Some i]) as SF' by (intros f I0; apply (SF f true); now right).
  revert SK' SF'. induction (md_lens d) as [|s r IH]; [reflexivity|]. cbn [forallb]. intros A B. apply andb_prop in A as [A1 A2]. cbn [len_steps].
  rewrite IH; [|exact A2|intros f I0; apply B; now right]. f_equal. destruct s as [f|f sk]; cbn [len_step].
  - rewrite fget_present. destruct (B f (or_introl eq_refl)) as [->|(i & ->)]; reflexivity.
  - subst sk. rewrite fget_present. apply len_present.
Qed.
Lemma steps_no_nil off p : mto_steps io (md_steps d) (m_fs (no_nil m)) off p = mto_steps io (md_steps d) (m_fs m) off p.
Proof.
  apply andb_prop in SK as [SK' _].
  assert (forall f a, In (MSingle f a) (md_steps d) -> fget (m_fs m) f = [] \/ exists i, fget (m_fs m) f = [Some i]) as SF' by (intros f a I0; apply (SF f a); now left).
  revert SK' SF' off p. induction (md_steps d) as [|s r IH]; [reflexivity|]. cbn [forallb]. intros A B off p. apply andb_prop in A as [A1 A2]. cbn [mto_steps].
  replace (mto_step io s (m_fs (no_nil m)) off p) with (mto_step io s (m_fs m) off p).
  - destruct (mto_step io s (m_fs m) off p) as [[p' off']| |]; [|reflexivity|reflexivity]. cbn. apply IH; [exact A2|]. intros f a I0. apply (B f a). now right.
  - destruct s as [f a|f sk a]; cbn [mto_step no_nil m_fs]; rewrite fget_present.
    + destruct (B f a (or_introl eq_refl)) as [->|(i & ->)]; reflexivity.
    + subst sk. symmetry. apply mto_present.
Qed.
Lemma marshal_no_nil : octets_of (msg_marshal io ho d (no_nil m)) = octets_of (msg_marshal io ho d m).
Proof.
  unfold msg_marshal, msg_mto.
  change (msg_mlen io ho d (no_nil m)) with (msg_mlen io ho d (Msg (m_hdr m) (m_fs (no_nil m)))). rewrite mlen_no_nil.
  change (msg_mlen io ho d (Msg (m_hdr m) (m_fs m))) with (msg_mlen io ho d m).
  destruct (msg_mlen io ho d m) as [n| |]; [|reflexivity|reflexivity]. cbn [bind].
  destruct (_ && _)%bool; [reflexivity|]. cbv zeta. rewrite mlen_no_nil. change (m_hdr (no_nil m)) with (m_hdr m).
  destruct (msg_mlen io ho d (Msg _ (m_fs m))) as [n2| |]; [|reflexivity|reflexivity]. cbn [bind].
  destruct (go_make _) as [p| |]; [|reflexivity|reflexivity]. cbn [bind]. rewrite steps_no_nil.
  destruct (mto_steps io _ (m_fs m) 0 p) as [x| |]; [|reflexivity|reflexivity]. cbn [bind].
  destruct (ho_mto ho _ _) as [b| |]; reflexivity.
Qed.
End NoNil.
(** nil elements put into the list fields of a message are not marshalled, for the messages
    that test for them: all of GTPv1 and GTPv0, the generic ones, and half of GTPv2 *)
Theorem C14_nil_elements_partial :
  (forall g d m, In d (d_Generic2 :: all_msgs2) -> skips_nil d = true -> single_fields d (m_fs m) ->
     octets_of (v2_marshal g d (no_nil m)) = octets_of (v2_marshal g d m)) /\
  (forall d m, In d (d_Generic1 :: all_msgs1) -> single_fields d (m_fs m) -> octets_of (v1_marshal d (no_nil m)) = octets_of (v1_marshal d m)) /\
  (forall d m, In d (d_Generic0 :: all_msgs0) -> single_fields d (m_fs m) -> octets_of (v0_marshal d (no_nil m)) = octets_of (v0_marshal d m)).
Proof.
  split; [|split].
  - intros g d m _ S F. now apply marshal_no_nil.
  - intros d m I F. apply marshal_no_nil; [|exact F]. assert (forallb skips_nil (d_Generic1 :: all_msgs1) = true) as K by (vm_compute; reflexivity).
    rewrite forallb_forall in K. auto.
  - intros d m I F. apply marshal_no_nil; [|exact F]. assert (forallb skips_nil (d_Generic0 :: all_msgs0) = true) as K by (vm_compute; reflexivity).
    rewrite forallb_forall in K. auto.
Qed.
Example C14_nil_example : List.length (filter skips_nil (d_Generic2 :: all_msgs2)) = 25%nat /\
  octets_of (v2_marshal default_grouped d_Generic2 (Msg (new_hdr2 72 40 1 2 []) [("IEs"%string, [None; Some (IE2 3 1 0 [9] []); None])])) =
    Ok [72; 40; 0; 13; 0; 0; 0; 1; 0; 0; 2; 0; 3; 0; 1; 0; 9].
Proof. now vm_compute. Qed.
(** the others dereference the nil *)
Definition all_nil (d : mdesc) : @fmap ie2 := map (fun p => (fst p, match snd p with FList => [None] | FSingle => [] end)) (md_fields d).
Theorem C14_nil_elements_refuted : forall d, In d all_msgs2 -> skips_nil d = false ->
  forall g h, v2_marshal g d (Msg h (all_nil d)) = Panic.
Proof.
  assert (forallb (fun d => skips_nil d || match len_steps (io2 default_grouped) (md_lens d) (all_nil d) with Panic => true | _ => false end) all_msgs2 = true) as K
    by (vm_compute; reflexivity).
  intros d I S g h. rewrite forallb_forall in K. specialize (K d I). rewrite S in K. cbn [orb] in K.
  unfold v2_marshal, msg_marshal, msg_mlen. cbn [m_fs].
  assert (forall g', len_steps (io2 g') (md_lens d) (all_nil d) = len_steps (io2 default_grouped) (md_lens d) (all_nil d)) as E.
  { intros g'. clear K. assert (forall f, fget (all_nil d) f = [] \/ fget (all_nil d) f = [None]) as N0.
    { intros f. unfold all_nil. induction (md_fields d) as [|[k x] r IH]; [now left|]. cbn. destruct (String.eqb k f); [|exact IH]. destruct x; auto. }
    induction (md_lens d) as [|s r IH]; [reflexivity|]. cbn [len_steps]. rewrite IH. f_equal.
    destruct s as [f|f sk]; cbn [len_step]; destruct (N0 f) as [->| ->]; reflexivity. }
  rewrite E. destruct (len_steps _ _ _); [discriminate|discriminate|reflexivity].
Qed.

(** ** C14, C17: generic messages *)
(** AddIE: the message built so is the one NewGeneric builds from all the IEs *)
Theorem C14_v2_generic_add : forall g mt teid seq a b m, v2_new_generic g mt teid seq a = Ok m ->
  v2_generic_add g m b = v2_new_generic g mt teid seq (a ++ b).
Proof.
  intros g mt teid seq a b m H. unfold v2_new_generic, v2_generic_set_length in H. apply bind_ok_inv in H as (n & _ & H). injection H as <-.
  reflexivity.
Qed.
Theorem C17_v1_generic_add : forall mt teid seq a b m, v1_new_generic mt teid seq a = Ok m ->
  v1_generic_add m b = v1_new_generic mt teid seq (a ++ b).
Proof.
  intros mt teid seq a b m H. unfold v1_new_generic, msg_set_length in H. apply bind_ok_inv in H as (n & _ & H). injection H as <-.
  reflexivity.
Qed.
Example C14_generic_add_example : exists m m', v2_new_generic default_grouped 40 1 2 [Some (IE2 3 1 0 [9] [])] = Ok m /\
  v2_generic_add default_grouped m [Some (IE2 73 1 0 [5] [])] = Ok m' /\ h2_length (m_hdr m') = 18.
Proof. eexists. eexists. split; [vm_compute; reflexivity|]. split; vm_compute; reflexivity. Qed.
(** NewGeneric of GTPv2 does not tolerate nil *)
Theorem C14_v2_generic_nil_refuted : forall g mt teid seq ies, In None ies -> v2_new_generic g mt teid seq ies = Panic.
Proof.
  intros g mt teid seq ies I. unfold v2_new_generic, v2_generic_set_length. cbn [m_fs fget String.eqb Ascii.eqb Bool.eqb].
  replace (len_list (io2 g) false ies) with (@Panic nat); [reflexivity|].
  induction ies as [|[i|] r IH]; [contradiction| |reflexivity]. cbn. destruct I as [I|I]; [discriminate|]. now rewrite <- (IH I).
Qed.

(** ** C17, C18: Decapsulate accepts T-PDUs only *)
Theorem C17_v1_decapsulate_type : forall b t, idx b 1 = Ok t ->
  (t <> 255 -> forall r, decapsulate1 b <> Ok r) /\
  (forall teid p, decapsulate1 b = Ok (teid, p) <-> t = 255 /\ exists h, h1_parse b = Ok h /\ h1_teid h = teid /\ h1_payload h = p).
Proof.
  intros b t T.
  assert (forall h, h1_parse b = Ok h -> h1_type h = t) as P.
  { intros h H. unfold h1_parse in H. destruct (_ <? _)%nat; [discriminate|]. apply bind_ok_inv in H as (f & _ & H). rewrite T in H. cbn [bind] in H.
    repeat (apply bind_ok_inv in H as (? & _ & H)). destruct (_ <? _)%nat; [discriminate|]. apply bind_ok_inv in H as ([[[sq np] nx] off] & _ & H).
    apply bind_ok_inv in H as ([es off'] & _ & H). destruct (_ <? _)%nat; [discriminate|]. apply bind_ok_inv in H as (p & _ & H). now injection H as <-. }
  unfold decapsulate1. split.
  - intros D r H. apply bind_ok_inv in H as (h & H1 & H2). rewrite (P h H1) in H2. apply N.eqb_neq in D. rewrite D in H2. discriminate.
  - intros teid p. split.
    + intros H. apply bind_ok_inv in H as (h & H1 & H2). rewrite (P h H1) in H2. destruct (t =? 255) eqn:E; [|discriminate]. apply N.eqb_eq in E.
      injection H2 as <- <-. eauto.
    + intros [-> (h & H1 & <- & <-)]. rewrite H1. cbn [bind]. now rewrite (P h H1).
Qed.
Theorem C18_v0_decapsulate_type : forall b t r, idx b 1 = Ok t -> decapsulate0 b = Ok r -> r <> None <-> t = 255.
Proof.
  intros b t r T H. unfold decapsulate0 in H. apply bind_ok_inv in H as (h & H & E). injection E as <-.
  assert (h0_type h = t) as ->.
  { unfold h0_parse in H. destruct (_ <? _)%nat; [discriminate|]. apply bind_ok_inv in H as (f & _ & H). rewrite T in H. cbn [bind] in H.
    repeat (apply bind_ok_inv in H as (? & _ & H)). destruct (negb _); apply bind_ok_inv in H as (p & _ & H); now injection H as <-. }
  destruct (t =? 255) eqn:E; [apply N.eqb_eq in E; subst; split; [reflexivity|discriminate]|]. apply N.eqb_neq in E. split; congruence.
Qed.
Example C17_decapsulate_example : decapsulate1 [48; 255; 0; 1; 0; 0; 0; 9; 69] = Ok (9, [69]) /\ decapsulate1 [48; 254; 0; 1; 0; 0; 0; 9; 69] = Err EInvalidMessageType.
Proof. now vm_compute. Qed.

Print Assumptions C58_v2_header_flags.
Print Assumptions C58_v1_header_flags.
Print Assumptions C58_v0_header_flags.
Print Assumptions C58_v2_set_piggybacking.
Print Assumptions C58_v2_set_teid.
Print Assumptions C58_v2_set_teid_length_refuted.
Print Assumptions C58_v2_set_sequence.
Print Assumptions C58_v2_set_priority.
Print Assumptions C58_v2_priority_refuted.
Print Assumptions C58_v1_set_sequence.
Print Assumptions C58_v1_set_npdu.
Print Assumptions C58_v1_set_teid.
Print Assumptions C58_v1_spare_bit_refuted.
Print Assumptions C58_v1_set_next.
Print Assumptions C58_v2_set_instance.
Print Assumptions C58_v2_grouped_types.
Print Assumptions C58_v1_tv_sizes_partial.
Print Assumptions C58_v1_teid_data_ii_refuted.
Print Assumptions C58_v0_tv_sizes.
Print Assumptions C56_value_as_uint.
Print Assumptions C26_parse_eci.
Print Assumptions C17_v1_new_header.
Print Assumptions C17_v1_new_flags.
Print Assumptions C18_v0_new_header.
Print Assumptions C15_v2_new_header.
Print Assumptions C15_version_not_supported_teid_refuted.
Print Assumptions C20_new_ignores_nil.
Print Assumptions C14_nil_elements_partial.
Print Assumptions C14_nil_elements_refuted.
Print Assumptions C14_v2_generic_add.
Print Assumptions C17_v1_generic_add.
Print Assumptions C14_v2_generic_nil_refuted.
Print Assumptions C17_v1_decapsulate_type.
Print Assumptions C18_v0_decapsulate_type.
