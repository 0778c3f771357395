(** Proofs about V2Codec2.v: timers. *)
From Coq Require Import ZArith.
From Verif Require Import Base BaseLemmas Utils UtilsProofs V2IE V2IESpec V2IEProofs V2Codec V2Codec2 CodecSpec CodecSpec4
  V2CodecProofs V2CodecProofs3.
Open Scope Z_scope.
Open Scope list_scope.

(** sweeps over a range of Z *)
Definition zrange (lo : Z) (n : nat) : list Z := map (fun k => lo + Z.of_N k) (below n).
Lemma zrange_complete lo n k : lo <= k < lo + Z.of_nat n -> In k (zrange lo n).
Proof.
  intros H. unfold zrange. apply in_map_iff. exists (Z.to_N (k - lo)). split; [lia|]. apply below_complete. lia.
Qed.
Lemma timer_sweep : forallb (fun e => forallb (fun k =>
   (epc_timer_value (epc_timer_octet (k * snd e)) =? k * snd e) && (epc_timer_octet (k * snd e) <? 256)%N) (zrange 0 32)) timer_units = true.
Proof. vm_compute. reflexivity. Qed.
Lemma timer_back d : timer_expressible d -> epc_timer_value (epc_timer_octet d) = d /\ (epc_timer_octet d < 256)%N.
Proof.
  intros (c & u & k & Hu & Hk & ->). pose proof (proj1 (forallb_forall _ _) timer_sweep (c, u) Hu) as B. cbv beta in B. cbn [snd] in B.
  pose proof (proj1 (forallb_forall _ _) B k (zrange_complete 0 32 k ltac:(lia))) as C. cbv beta in C.
  apply andb_prop in C. destruct C. split; [apply Z.eqb_eq; assumption|apply N.ltb_lt; assumption].
Qed.
Lemma timer_value_sweep : forallb (fun x => (epc_timer_value x =? max_int64) || existsb (fun e => existsb (fun k => epc_timer_value x =? k * snd e) (zrange 0 32)) timer_units) (below 256) = true.
Proof. vm_compute. reflexivity. Qed.
Lemma epc_octet_byte d : (epc_timer_octet d < 256)%N.
Proof.
  unfold epc_timer_octet. destruct (if _ =? 0 then _ else _) as [u v]. unfold u8. apply N.mod_lt. discriminate.
Qed.
Lemma zrange_bounds lo n k : In k (zrange lo n) -> lo <= k < lo + Z.of_nat n.
Proof. intros H. apply in_map_iff in H. destruct H as (x & <- & H). unfold below in H. apply in_map_iff in H. destruct H as (y & <- & H). apply in_seq in H. lia. Qed.
Lemma timer_back_only d : epc_timer_value (epc_timer_octet d) = d -> timer_expressible d \/ d = max_int64.
Proof.
  intros H. pose proof (proj1 (forallb_forall _ _) timer_value_sweep (epc_timer_octet d) (below_complete 256 _ (epc_octet_byte d))) as B.
  cbv beta in B. rewrite H in B. apply orb_prop in B. destruct B as [B|B]; [right; apply Z.eqb_eq; exact B|left].
  apply existsb_exists in B. destruct B as ([c u] & Hu & B). apply existsb_exists in B. destruct B as (k & Hk & B).
  exists c, u, k. split; [exact Hu|]. split; [apply zrange_bounds in Hk; lia|apply Z.eqb_eq; exact B].
Qed.
Lemma timer_exact d : epc_timer_value (epc_timer_octet d) = d <-> timer_expressible d \/ d = max_int64.
Proof.
  split; [apply timer_back_only|]. intros [H| ->]; [apply timer_back, H|reflexivity].
Qed.
Definition throttling_delay (x : N) : Z :=
  let u := N.shiftr (N.land x 224) 5 in let v := Z.of_N (N.land x 31) in
  if (u =? 4)%N then v * (10 * hour) else if (u =? 3)%N then v * hour else if (u =? 2)%N then v * (10 * minute)
  else if (u =? 1)%N then v * minute else if (u =? 0)%N then v * (2 * sec) else 0.
Lemma throttling_sweep : forallb (fun e => forallb (fun k => let d := k * snd e in let x := throttling_octet (throttling_unit d) d in
   ((throttling_delay x =? d) && (x <? 256)%N) && (N.shiftr (N.land x 224) 5 =? throttling_unit d)%N) (zrange 0 32)) timer_units = true.
Proof. vm_compute. reflexivity. Qed.
Lemma throttling_back d : timer_expressible d -> let x := throttling_octet (throttling_unit d) d in
  throttling_delay x = d /\ (x < 256)%N /\ N.shiftr (N.land x 224) 5 = throttling_unit d.
Proof.
  intros (c & u & k & Hu & Hk & ->). pose proof (proj1 (forallb_forall _ _) throttling_sweep (c, u) Hu) as B. cbv beta in B. cbn [snd] in B.
  pose proof (proj1 (forallb_forall _ _) B k (zrange_complete 0 32 k ltac:(lia))) as C. cbv beta zeta in C.
  apply andb_prop in C. destruct C as [C C3]. apply andb_prop in C. destruct C as [C1 C2]. cbv zeta.
  split; [apply Z.eqb_eq; assumption|]. split; [apply N.ltb_lt; assumption|apply N.eqb_eq; assumption].
Qed.
(** UE time zone *)
Lemma tz_sweep : forallb (fun k => (tz_octet (k * (15 * minute)) =? tz_spec k)%N && ((tz_value (tz_spec k) =? k * (15 * minute)) && (tz_spec k <? 256)%N)) (zrange (-79) 159) = true.
Proof. vm_compute. reflexivity. Qed.
Lemma tz_back k : -79 <= k <= 79 -> tz_octet (k * (15 * minute)) = tz_spec k /\ tz_value (tz_spec k) = k * (15 * minute) /\ (tz_spec k < 256)%N.
Proof.
  intros H. pose proof (proj1 (forallb_forall _ _) tz_sweep k (zrange_complete (-79) 159 k ltac:(lia))) as B. cbv beta in B.
  apply andb_prop in B. destruct B as [B1 B]. apply andb_prop in B. destruct B as [B2 B3].
  split; [apply N.eqb_eq; exact B1|]. split; [apply Z.eqb_eq; exact B2|apply N.ltb_lt; exact B3].
Qed.
(** delay value: multiples of 50 ms *)
Definition delay_octet (d : Z) : N := z8 (ftrunc (fdiv (fmul (seconds d) (f64 1000)) (f64 50))).
Lemma delay_sweep : forallb (fun k => (delay_octet (k * (50 * msec)) =? Z.to_N k)%N) (zrange 0 256) = true.
Proof. vm_compute. reflexivity. Qed.

Lemma delay_back k : 0 <= k < 256 -> delay_octet (k * (50 * msec)) = Z.to_N k.
Proof.
  intros H. pose proof (proj1 (forallb_forall _ _) delay_sweep k (zrange_complete 0 256 k ltac:(lia))) as B. cbv beta in B.
  apply N.eqb_eq. exact B.
Qed.

Section G.
Context (g : N -> bool).
Lemma new_u8_made t v : (t < 256)%N -> (v < 256)%N -> made g (Ok (Some (new_uint8 g t v))) t [v] (new_uint8 g t v).
Proof. intros Ht Hv. apply new2_made; [exact Ht|repeat constructor; exact Hv|cbn; lia]. Qed.
Lemma epc_timer_all d : timer_expressible d ->
  exists i, made g (Ok (Some (new_epc_timer g d))) 156 [epc_timer_octet d] i /\ acc_timer i = Ok d.
Proof.
  intros H. destruct (timer_back d H) as [B O]. exists (new_epc_timer g d). split; [apply new_u8_made; [reflexivity|exact O]|].
  change (acc_timer (new_epc_timer g d)) with (Ok (epc_timer_value (epc_timer_octet d))). rewrite B. reflexivity.
Qed.
(** what comes back in any case: the duration itself exactly when it is expressible *)
Lemma epc_timer_exact d : acc_timer (new_epc_timer g d) = Ok d <-> timer_expressible d \/ d = max_int64.
Proof.
  change (acc_timer (new_epc_timer g d)) with (Ok (epc_timer_value (epc_timer_octet d))). rewrite <- timer_exact.
  split; [apply Ok_inj|congruence].
Qed.
Lemma throttling_all d factor : timer_expressible d -> (factor < 256)%N ->
  exists i x, made g (new_throttling g d factor) 154 [x; factor] i /\ acc_throttling i = Ok (throttling_unit d, d, factor) /\
    (x = epc_timer_octet d).
Proof.
  intros H Hf. destruct (throttling_back d H) as (B & O & U). set (x := throttling_octet (throttling_unit d) d) in *.
  exists (new2 g 154 0 [x; factor]), x. split; [|split].
  - apply new_or_nil_made; [reflexivity|lia|repeat constructor; assumption|cbn; lia].
  - change (acc_throttling (new2 g 154 0 [x; factor])) with (Ok (N.shiftr (N.land x 224) 5, throttling_delay x, factor)).
    rewrite U, B. reflexivity.
  - unfold x. destruct H as (c & u & k & Hu & Hk & ->).
    assert (S : forallb (fun e => forallb (fun k => let d := k * snd e in (throttling_octet (throttling_unit d) d =? epc_timer_octet d)%N) (zrange 0 32)) timer_units = true) by (vm_compute; reflexivity).
    pose proof (proj1 (forallb_forall _ _) S (c, u) Hu) as B'. cbv beta in B'. cbn [snd] in B'.
    pose proof (proj1 (forallb_forall _ _) B' k (zrange_complete 0 32 k ltac:(lia))) as C. cbv beta zeta in C. apply N.eqb_eq. exact C.
Qed.
Lemma ue_time_zone_all k dst : -79 <= k <= 79 -> (dst < 4)%N ->
  exists i, made g (Ok (Some (new_ue_time_zone g (k * (15 * minute)) dst))) 114 [tz_spec k; dst] i /\
    acc_time_zone i = Ok (k * (15 * minute)) /\ acc_dst i = Ok dst.
Proof.
  intros Hk Hd. destruct (tz_back k Hk) as (B & V & O). unfold new_ue_time_zone. rewrite B.
  assert (D : N.land dst 3 = dst) by (change 3%N with (N.ones 2); rewrite N.land_ones; apply N.mod_small; exact Hd). rewrite D.
  exists (new2 g 114 0 [tz_spec k; dst]). split; [|split].
  - apply new2_made; [reflexivity|repeat constructor; [exact O|]|cbn; lia]. unfold is_byte. lia.
  - change (acc_time_zone (new2 g 114 0 [tz_spec k; dst])) with (Ok (tz_value (tz_spec k))). rewrite V. reflexivity.
  - reflexivity.
Qed.
Lemma delay_value_all k : 0 <= k < 256 ->
  made g (Ok (Some (new_delay_value g (k * (50 * msec))))) 92 [Z.to_N k] (new_delay_value g (k * (50 * msec))) /\
  new_delay_value_raw g (Z.to_N k) = new_delay_value g (k * (50 * msec)).
Proof.
  intros H. change (new_delay_value g (k * (50 * msec))) with (new_uint8 g 92 (delay_octet (k * (50 * msec)))). rewrite delay_back by exact H.
  split; [apply new_u8_made; [reflexivity|lia]|reflexivity].
Qed.
(** [x] in Unix seconds, [frac] nanoseconds *)
Lemma uli_timestamp_all x frac : - ntp_unix <= x < 2 ^ 32 -> 0 <= frac < sec ->
  exists i, made g (Ok (Some (new_uli_timestamp g ((x + ntp_unix) * sec + frac)))) 170 (enc32 (Z.to_N ((x + ntp_unix) mod 2 ^ 32))) i /\
    acc_timestamp i = Ok (x mod 2 ^ 32).
Proof.
  intros Hx Hf. set (i := new_uli_timestamp g ((x + ntp_unix) * sec + frac)).
  assert (E : ((x + ntp_unix) * sec + frac) mod 2 ^ 64 / 1000000000 mod 2 ^ 32 = (x + ntp_unix) mod 2 ^ 32).
  { change ntp_unix with 2208988800 in *. unfold sec in *. rewrite (Z.mod_small _ (2 ^ 64)) by lia.
    rewrite Z.div_add_l by lia. rewrite (Z.div_small frac) by lia. rewrite Z.add_0_r. reflexivity. }
  set (v := Z.to_N ((x + ntp_unix) mod 2 ^ 32)).
  assert (Hv : (v < 4294967296)%N) by (unfold v; lia).
  assert (Ei : i = new_uint32 g 170 v) by (unfold i, new_uli_timestamp, v; rewrite E; reflexivity).
  exists i. rewrite Ei. split; [apply new2_made; [reflexivity|apply enc32_ok|cbn; lia]|].
  unfold acc_timestamp, new_uint32. ty. change (slice (enc32 v) 0 4) with (Ok (enc32 v)). change (len (enc32 v) <? 4)%nat with false.
  cbn [bind orb]. cbv iota. rewrite be32_enc' by exact Hv. cbn [bind]. f_equal. unfold v. rewrite Z2N.id by lia.
  change ntp_unix with 2208988800. rewrite Zminus_mod_idemp_l. f_equal. lia.
Qed.
End G.
