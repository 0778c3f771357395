(** Proofs about V2Codec.v: cause, flag octets, one-value IEs, lookup in a bearer context. *)
From Coq Require Import String.
From Verif Require Import Base BaseLemmas Utils UtilsProofs V2IE V2IESpec V2IEProofs V2Codec CodecSpec V2CodecProofs V2CodecProofs3.
Open Scope N_scope.
Open Scope list_scope.

Lemma hasbit_testbit k f : hasbit k f = N.testbit f k.
Proof.
  unfold hasbit.
  assert (E : N.land f (2 ^ k) = if N.testbit f k then 2 ^ k else 0).
  { apply N.bits_inj. intros n. rewrite N.land_spec, N.pow2_bits_eqb.
    destruct (N.eqb_spec k n) as [->|Hn].
    - rewrite andb_true_r. destruct (N.testbit f n); [rewrite N.pow2_bits_true; reflexivity|rewrite N.bits_0; reflexivity].
    - rewrite andb_false_r. destruct (N.testbit f k); [rewrite N.pow2_bits_false by assumption; reflexivity|rewrite N.bits_0; reflexivity]. }
  rewrite E. destruct (N.testbit f k).
  - rewrite N.shiftr_div_pow2, N.div_same by (apply N.pow_nonzero; discriminate). reflexivity.
  - rewrite N.shiftr_0_l. reflexivity.
Qed.
Ltac two x := let E := fresh in assert (x = 0 \/ x = 1) as E by lia; destruct E as [-> | ->].

Section G.
Context (g : N -> bool).

(** ** Looking into a bearer context *)
Lemma via_context_wf {A} t (f : ie2 -> res A) i :
  wf2 g i -> g 93 = true -> i2_type i = 93 -> i2_children i <> [] -> t <> 93 ->
  via_context g t f i =
    match find (fun c => i2_type c =? t) (i2_children i) with Some c => f c | None => Err EIENotFound end.
Proof.
  intros Hw Hg Ht Hc Hn. unfold via_context. rewrite Ht.
  destruct (N.eqb_spec 93 t) as [E|_]; [congruence|]. change (93 =? 93) with true. cbv iota.
  inv Hw; cbn [i2_type i2_children] in *; [congruence|]. subst t0.
  unfold bearer_context. cbn [i2_type i2_payload]. change (93 =? 93) with true. cbn [negb].
  assert (L : (4 <= len (flat_map (wire2 g) c))%nat).
  { destruct c as [|x r]; [congruence|]. cbn [flat_map]. rewrite app_length, len_wire.
    pose proof (mlen_ge4 g x). lia. }
  rewrite (proj2 (Nat.ltb_ge _ 1)) by lia. rewrite multi2_wire by assumption. reflexivity.
Qed.

(** ** Cause *)
Lemma cause_bits pce bce cs : pce < 2 -> bce < 2 -> cs < 2 ->
  N.lor (N.lor (N.land (u8 (N.shiftl pce 2)) 4) (N.land (u8 (N.shiftl bce 1)) 2)) (N.land cs 1) = 4 * pce + 2 * bce + cs.
Proof. intros. two pce; two bce; two cs; reflexivity. Qed.
Lemma cause_all cause pce bce cs off :
  g 2 = false -> cause < 256 -> pce < 2 -> bce < 2 -> cs < 2 -> (forall t, off = Some t -> t < 256) ->
  let i := new_cause g cause pce bce cs off in
  made g (Ok (Some i)) 2 (cause_octets cause pce bce cs off) i /\
  acc_cause g i = Ok cause /\ acc_cause_flags g i = Ok (4 * pce + 2 * bce + cs) /\
  has_pce g i = (pce =? 1) /\ is_bearer_context_ie_error i = (bce =? 1) /\
  match off with
  | None => acc_offending g i = Err EUnexpectedEOF
  | Some t => acc_offending g i = Ok (IE2 t 0 0 [] [])
  end.
Proof.
  intros Hg Hc Hp Hb Hs Ho i.
  assert (E : i2_type i = 2 /\ i2_payload i = cause_octets cause pce bce cs off).
  { unfold i, new_cause, cause_octets. rewrite cause_bits by assumption. destruct off; split; reflexivity. }
  destruct E as [Et Ep].
  assert (Bo : bytes_ok (cause_octets cause pce bce cs off)).
  { unfold cause_octets. apply bytes_ok_app.
    - repeat constructor; unfold is_byte; lia.
    - destruct off as [t|]; repeat constructor. exact (Ho t eq_refl). }
  split.
  { split; [reflexivity|]. split; [exact Et|]. split; [unfold i, new_cause; destruct off; reflexivity|].
    split; [exact Ep|]. intros _. unfold i, new_cause. rewrite cause_bits by assumption.
    destruct off; [|apply new2_wf; [assumption|lia|exact Bo|cbn; lia]].
    constructor; try reflexivity; try exact Bo; try assumption; cbn; lia. }
  assert (V : forall f : ie2 -> res N, via_context g 2 f i = f i).
  { intros f. unfold via_context. rewrite Et. reflexivity. }
  unfold acc_cause, value_u8. rewrite V, Et, Hg, Ep. split; [reflexivity|].
  assert (Af : acc_cause_flags g i = Ok (4 * pce + 2 * bce + cs)).
  { unfold acc_cause_flags. rewrite Et, Ep. reflexivity. }
  split; [exact Af|].
  unfold has_pce. rewrite Af. cbn [flag_of].
  unfold is_bearer_context_ie_error, cause_bit, acc_offending, typed. rewrite Et, Ep. change (2 =? 2) with true. cbv iota.
  split; [two pce; two bce; two cs; reflexivity|].
  split; [two pce; two bce; two cs; reflexivity|].
  destruct off as [t|]; [|reflexivity].
  unfold cause_octets. run. unfold parse2. cbn [List.length Nat.add parse2_f]. run.
  change (Z.of_nat 4 - 4 <? Z.of_N (0 * 256 + 0))%Z with false. cbv iota.
  change (0 * 256 + 0) with 0. change (N.to_nat 0) with 0%nat. run. destruct (g t); reflexivity.
Qed.

(** ** One-value IEs *)
Lemma u8_made t v : t < 256 -> v < 256 -> made g (Ok (Some (new_uint8 g t v))) t [v] (new_uint8 g t v).
Proof. intros. apply new2_made; [assumption|repeat constructor; assumption|cbn; lia]. Qed.
Lemma acc_u8_new t v : g t = false -> acc_u8 g t (new_uint8 g t v) = Ok v.
Proof. intros H. unfold acc_u8, new_uint8. rewrite typed_new2. unfold value_u8. cbn [new2 set_length2 i2_type i2_payload]. rewrite H. reflexivity. Qed.
Lemma u16_made t v : t < 256 -> made g (Ok (Some (new_uint16 g t v))) t (enc16 v) (new_uint16 g t v).
Proof. intros. apply new2_made; [assumption|apply enc16_ok|cbn; lia]. Qed.
Lemma acc_u16_new t v : g t = false -> v < 2 ^ 16 -> acc_u16 g t (new_uint16 g t v) = Ok v.
Proof.
  intros H Hv. unfold acc_u16, new_uint16. rewrite typed_new2. unfold value_u16.
  cbn [new2 set_length2 i2_type i2_payload]. rewrite H. run. f_equal. change (2 ^ 16) with 65536 in Hv. lia.
Qed.
Lemma u32_made t v : t < 256 -> made g (Ok (Some (new_uint32 g t v))) t (enc32 v) (new_uint32 g t v).
Proof. intros. apply new2_made; [assumption|apply enc32_ok|cbn; lia]. Qed.
Lemma acc_u32_new t v : g t = false -> v < 2 ^ 32 -> acc_u32 g t (new_uint32 g t v) = Ok v.
Proof.
  intros H Hv. unfold acc_u32, new_uint32. rewrite typed_new2. unfold value_u32.
  cbn [new2 set_length2 i2_type i2_payload]. rewrite H. run. f_equal. apply enc32_back, Hv.
Qed.
Lemma acc_string_new t s : g t = false -> acc_string g t (new_string g t s) = Ok s.
Proof. intros H. unfold acc_string, new_string. rewrite typed_new2. unfold value_string. cbn [new2 set_length2 i2_type i2_payload]. rewrite H. reflexivity. Qed.
Lemma one_value_all :
  Forall (fun e => In e ie_type_code /\ forall v, g (snd e) = false -> v < 256 ->
     let i := new_uint8 g (snd e) v in made g (Ok (Some i)) (snd e) [v] i /\ acc_u8 g (snd e) i = Ok v) u8_ies /\
  Forall (fun e => In e ie_type_code /\ forall v, g (snd e) = false -> v < 2 ^ 16 ->
     let i := new_uint16 g (snd e) v in made g (Ok (Some i)) (snd e) (enc16 v) i /\ acc_u16 g (snd e) i = Ok v) u16_ies /\
  Forall (fun e => In e ie_type_code /\ forall v, g (snd e) = false -> v < 2 ^ 32 ->
     let i := new_uint32 g (snd e) v in made g (Ok (Some i)) (snd e) (enc32 v) i /\ acc_u32 g (snd e) i = Ok v) u32_ies /\
  Forall (fun e => In e ie_type_code /\ forall v, g (snd e) = false -> bytes_ok v -> (len v < N.to_nat 65536)%nat ->
     let i := new_string g (snd e) v in made g (Ok (Some i)) (snd e) v i /\ acc_string g (snd e) i = Ok v) string_ies.
Proof.
  assert (I : forall l, forallb (fun e => existsb (fun x => String.eqb (fst e) (fst x) && (snd e =? snd x)) ie_type_code && (snd e <? 256)) l = true ->
    Forall (fun e => In e ie_type_code /\ snd e < 256) l).
  { intros l H. apply Forall_forall. intros e He. rewrite forallb_forall in H. specialize (H e He).
    apply andb_prop in H. destruct H as [H H']. split; [|lia]. apply existsb_exists in H. destruct H as (x & Hx & E).
    apply andb_prop in E. destruct E as [E1 E2]. apply String.eqb_eq in E1. apply N.eqb_eq in E2.
    destruct e, x; cbn in *; subst; assumption. }
  repeat split; (eapply Forall_impl; [|apply I; reflexivity]); intros e [He Ht]; (split; [exact He|]); intros v Hg Hv; intros.
  - split; [apply u8_made; assumption|apply acc_u8_new; assumption].
  - split; [apply u16_made; assumption|apply acc_u16_new; assumption].
  - split; [apply u32_made; assumption|apply acc_u32_new; assumption].
  - split; [apply new2_made; assumption|apply acc_string_new; assumption].
Qed.
Lemma fqdn_all s t b : g t = false -> t < 256 -> encode_fqdn s = Ok b -> bytes_ok b -> (len b < N.to_nat 65536)%nat ->
  exists i, new_fqdn g t s = Ok i /\ made g (Ok (Some i)) t b i /\ acc_fqdn g t i = decode_fqdn b.
Proof.
  intros Hg Ht E Hb Hl. unfold new_fqdn. rewrite E. cbn [bind]. eexists. split; [reflexivity|].
  split; [apply new2_made; assumption|]. unfold acc_fqdn. rewrite typed_new2. unfold value_fqdn.
  cbn [new2 set_length2 i2_type i2_payload]. rewrite Hg. reflexivity.
Qed.
Lemma ebi_all e : g 73 = false -> e < 16 ->
  let i := new_ebi g e in made g (Ok (Some i)) 73 [e] i /\ acc_ebi g i = Ok e.
Proof.
  intros Hg He i. unfold i, new_ebi. rewrite land15 by lia. rewrite N.mod_small by assumption.
  split; [apply u8_made; lia|]. unfold acc_ebi, new_uint8. rewrite via_new2. unfold value_u8.
  cbn [new2 set_length2 i2_type i2_payload]. rewrite Hg. reflexivity.
Qed.
Lemma charging_id_all v : g 94 = false -> v < 2 ^ 32 ->
  let i := new_charging_id g v in made g (Ok (Some i)) 94 (enc32 v) i /\ acc_charging_id g i = Ok v.
Proof.
  intros Hg Hv i. split; [apply u32_made; lia|]. unfold i, new_charging_id, acc_charging_id, new_uint32.
  rewrite via_new2. unfold value_u32. cbn [new2 set_length2 i2_type i2_payload]. rewrite Hg. run.
  f_equal. apply enc32_back, Hv.
Qed.
Lemma csg_id_all v : g 147 = false -> v < 2 ^ 27 ->
  let i := new_csg_id g v in made g (Ok (Some i)) 147 (enc32 v) i /\ acc_csg_id g i = Ok v.
Proof.
  intros Hg Hv i. unfold i, new_csg_id. change 134217727 with (N.ones 27). rewrite N.land_ones, N.mod_small by assumption.
  split; [apply u32_made; lia|]. unfold acc_csg_id, new_uint32, value_u32. ty. rewrite Hg. run.
  f_equal. apply enc32_back. change (2 ^ 27) with 134217728 in Hv. change (2 ^ 32) with 4294967296. lia.
Qed.
Lemma ptmsi_sig_all v : v < 2 ^ 24 ->
  let i := new_ptmsi_sig g v in made g (Ok (Some i)) 112 (enc24 v) i /\ acc_ptmsi_sig i = Ok v.
Proof.
  intros Hv i. unfold i, new_ptmsi_sig. rewrite uint32to24_enc.
  split; [apply new2_made; [lia|apply enc24_ok|cbn; lia]|].
  unfold acc_ptmsi_sig. rewrite typed_new2. ty.
  replace (len (enc24 v) <? 1)%nat with false by reflexivity.
  rewrite <- uint32to24_enc, uint24_roundtrip. change (2 ^ 24) with 16777216 in Hv. f_equal. lia.
Qed.

(** ** Flag octets *)
Lemma bearer_flags_all asi vind vb ppc : g 97 = false -> asi < 2 -> vind < 2 -> vb < 2 -> ppc < 2 ->
  let i := new_bearer_flags g asi vind vb ppc in
  made g (Ok (Some i)) 97 [bearer_flags_octet asi vind vb ppc] i /\
  has_asi g i = (asi =? 1) /\ has_vind g i = (vind =? 1) /\ has_vb g i = (vb =? 1) /\ has_ppc g i = (ppc =? 1).
Proof.
  intros Hg Ha Hi Hb Hp i.
  assert (E : i = new2 g 97 0 [bearer_flags_octet asi vind vb ppc]).
  { unfold i, new_bearer_flags, bearer_flags_octet. f_equal. f_equal. two asi; two vind; two vb; two ppc; reflexivity. }
  assert (A : acc_bearer_flags g i = Ok (bearer_flags_octet asi vind vb ppc)).
  { unfold acc_bearer_flags. rewrite E, via_new2. unfold value_u8. ty. rewrite Hg. reflexivity. }
  split.
  { rewrite E. apply new2_made; [lia|unfold bearer_flags_octet; repeat constructor; unfold is_byte; lia|cbn; lia]. }
  unfold has_asi, has_vind, has_vb, has_ppc. rewrite A. cbn [flag_of].
  repeat split; two asi; two vind; two vb; two ppc; reflexivity.
Qed.
Lemma mbms_flags_all lmri msri : g 171 = false -> lmri < 2 -> msri < 2 ->
  let i := new_mbms_flags g lmri msri in
  made g (Ok (Some i)) 171 [2 * lmri + msri] i /\ has_lmri g i = (lmri =? 1) /\ has_msri g i = (msri =? 1).
Proof.
  intros Hg Ha Hi i.
  assert (E : i = new2 g 171 0 [2 * lmri + msri]).
  { unfold i, new_mbms_flags. f_equal. f_equal. two lmri; two msri; reflexivity. }
  assert (A : acc_mbms_flags g i = Ok (2 * lmri + msri)).
  { unfold acc_mbms_flags. rewrite E, typed_new2. unfold value_u8. ty. rewrite Hg. reflexivity. }
  split.
  { rewrite E. apply new2_made; [lia|repeat constructor; unfold is_byte; lia|cbn; lia]. }
  unfold has_lmri, has_msri. rewrite A. cbn [flag_of]. split; two lmri; two msri; reflexivity.
Qed.
(** a flag accessor reads the bit of the first octet *)
Lemma node_feature_spec k v : g 152 = false -> v < 256 ->
  has_node_feature g k (new_uint8 g 152 v) = N.testbit v k.
Proof.
  intros Hg Hv. unfold has_node_feature. rewrite acc_u8_new by assumption. apply hasbit_testbit.
Qed.

(** ** Private extension, RAN/NAS cause *)
Lemma private_extension_all id v : id < 2 ^ 16 -> bytes_ok v -> v <> [] -> (len v < N.to_nat 65534)%nat ->
  exists i, new_private_extension id v = Ok i /\
    made g (Ok (Some i)) 255 (enc16 id ++ v) i /\
    acc_enterprise_id i = Ok id /\ acc_private_extension i = Ok v.
Proof.
  intros Hi Hv Hn Hl.
  assert (N65534 : N.to_nat 65534 = (N.to_nat 65536 - 2)%nat) by lia.
  assert (E : new_private_extension id v = Ok (IE2 255 (N.of_nat (2 + len v)) 0 (enc16 id ++ v) [])).
  { unfold new_private_extension. set (m := (2 + len v)%nat).
    rewrite (w_start (zeros m)). unfold m. do 2 wr. rewrite w_end by len_tac.
    cbn [app]. unfold u16; rewrite N.mod_small by lia. reflexivity. }
  rewrite E. eexists. split; [reflexivity|].
  split.
  { split; [reflexivity|]. split; [reflexivity|]. split; [reflexivity|]. split; [reflexivity|].
    intros Hg. apply wf2_plain; try assumption; try lia; [|rewrite Nat2N.id; reflexivity].
    apply bytes_ok_app; [apply enc16_ok|assumption]. }
  destruct v as [|x v]; [congruence|].
  unfold acc_enterprise_id, acc_private_extension, typed. cbn [i2_type i2_payload]. change (255 =? 255) with true. cbv iota. run. change (2 ^ 16) with 65536 in Hi.
  split; [f_equal; lia|reflexivity].
Qed.
Lemma nibbles p c : p < 16 -> c < 16 ->
  N.lor (u8 (N.shiftl (N.land p 15) 4)) (N.land c 15) = 16 * p + c /\
  N.shiftr (N.land (16 * p + c) 240) 4 = p /\ N.land (16 * p + c) 15 = c.
Proof.
  intros Hp Hc.
  assert (B : forallb (fun p => forallb (fun c =>
     (N.lor (u8 (N.shiftl (N.land p 15) 4)) (N.land c 15) =? 16 * p + c) &&
     (N.shiftr (N.land (16 * p + c) 240) 4 =? p) && (N.land (16 * p + c) 15 =? c)) (below 16)) (below 16) = true) by (vm_compute; reflexivity).
  rewrite forallb_forall in B. specialize (B p (below_complete 16 p Hp)). cbv beta in B. rewrite forallb_forall in B.
  specialize (B c (below_complete 16 c Hc)). lia.
Qed.
Lemma ran_nas_all f : ran_nas_ok f -> (len (snd f) < N.to_nat 65535)%nat ->
  exists i, made g (new_ran_nas_cause g (fst (fst f)) (snd (fst f)) (snd f)) 172 (ran_nas_octets f) i /\
    acc_ran_nas_cause g i = Ok f.
Proof.
  destruct f as [[p c] v]. unfold ran_nas_ok, ran_nas_octets. cbn [fst snd]. intros (Hp & Hc & Hv & Hn) Hl.
  destruct (nibbles p c Hp Hc) as (E1 & E2 & E3).
  eexists. split.
  - unfold new_ran_nas_cause. rewrite E1. rewrite len_zeros.
    replace (1 + len v <? 1)%nat with false by lia.
    set (m := (1 + len v)%nat). rewrite (w_start (zeros m)). unfold m. wr.
    rewrite w_len by len_tac. rewrite len_zeros. rewrite Nat.ltb_irrefl. wr. rewrite w_end by len_tac.
    cbn [app]. apply new_or_nil_made; [reflexivity|lia| |cbn; lia].
    constructor; [unfold is_byte; lia|assumption].
  - unfold acc_ran_nas_cause. rewrite via_new2. ty. unfold ran_nas_parse. destruct v as [|x v]; [congruence|]. run.
    rewrite E2, E3. reflexivity.
Qed.

(** ** Data forwarding *)
Lemma cells4 (a : bytes) : octets 4 a -> exists x y z w, a = [x; y; z; w].
Proof.
  intros [L _]. do 5 (destruct a as [|? a]; try discriminate L). repeat eexists.
Qed.
Lemma cells16 (a : bytes) : octets 16 a -> exists a0 a1 a2 a3 a4 a5 a6 a7 a8 a9 b0 b1 b2 b3 b4 b5,
  a = [a0;a1;a2;a3;a4;a5;a6;a7;a8;a9;b0;b1;b2;b3;b4;b5].
Proof.
  intros [L _]. do 17 (destruct a as [|? a]; try discriminate L). repeat eexists.
Qed.
Lemma addr_fields4 ip a : to4 ip = Some a -> addr_fields ip = (4, a).
Proof. unfold addr_fields. intros ->. reflexivity. Qed.
Lemma addr_fields16 ip a : to4 ip = None -> to16 ip = Some a -> addr_fields ip = (16, a).
Proof. unfold addr_fields. intros -> ->. reflexivity. Qed.
Lemma s1udf_v4_all ebi ip a teid : ip_arg_ok ip -> ebi < 16 -> teid < 2 ^ 32 -> to4 ip = Some a ->
  exists i, made g (new_s1udf g ebi ip teid) 91 ([ebi; 4] ++ a ++ enc32 teid) i /\
    s1udf_parse (i2_payload i) = Ok (S1udf ebi 4 a teid) /\ acc_ip i = Ok (Some a) /\ acc_ipv4 i = Ok a.
Proof.
  intros Hi He Ht E. destruct (to4_octets ip a Hi E) as [L B].
  set (f := S1udf ebi 4 a teid).
  assert (Hf : s1udf_ok f).
  { unfold s1udf_ok. cbn. rewrite L. repeat split; try assumption. cbn. lia. }
  exists (new2 g 91 0 (s1udf_octets f)).
  assert (Eo : s1udf_octets f = [ebi; 4] ++ a ++ enc32 teid) by (unfold s1udf_octets; cbn [f s1_ebi s1_addr s1_teid]; rewrite L; reflexivity).
  destruct s1udf_codec as (M & P & _). split; [|split; [|split]].
  - rewrite <- Eo. unfold new_s1udf, new_s1udf_fields. rewrite (addr_fields4 ip a E). cbn [fst snd].
    apply new_or_nil_made; [apply M, Hf|lia| |rewrite Eo; cbn; rewrite app_length, L; cbn; lia].
    rewrite Eo. apply bytes_ok_app; [repeat constructor; unfold is_byte; lia|]. apply bytes_ok_app; [assumption|apply enc32_ok].
  - cbn [new2 set_length2 i2_payload]. rewrite <- (app_nil_r (s1udf_octets f)). apply P; [exact Hf|constructor].
  - rewrite Eo. destruct (cells4 a (conj L B)) as (x & y & z & w & ->). reflexivity.
  - unfold acc_ipv4. rewrite Eo. destruct (cells4 a (conj L B)) as (x & y & z & w & ->). reflexivity.
Qed.
Lemma s1udf_v6_all ebi ip a teid : ip_arg_ok ip -> ebi < 16 -> teid < 2 ^ 32 -> to4 ip = None -> to16 ip = Some a ->
  exists i, made g (new_s1udf g ebi ip teid) 91 ([ebi; 16] ++ a ++ enc32 teid) i /\
    s1udf_parse (i2_payload i) = Ok (S1udf ebi 16 a teid) /\ acc_ip i = Ok (Some a) /\ acc_ipv6 i = Ok a.
Proof.
  intros Hi He Ht E4 E. destruct (to16_octets ip a Hi E) as [L B].
  set (f := S1udf ebi 16 a teid).
  assert (Hf : s1udf_ok f).
  { unfold s1udf_ok. cbn. rewrite L. repeat split; try assumption. cbn. lia. }
  exists (new2 g 91 0 (s1udf_octets f)).
  assert (Eo : s1udf_octets f = [ebi; 16] ++ a ++ enc32 teid) by (unfold s1udf_octets; cbn [f s1_ebi s1_addr s1_teid]; rewrite L; reflexivity).
  destruct s1udf_codec as (M & P & _). split; [|split; [|split]].
  - rewrite <- Eo. unfold new_s1udf, new_s1udf_fields. rewrite (addr_fields16 ip a E4 E). cbn [fst snd].
    apply new_or_nil_made; [apply M, Hf|lia| |rewrite Eo; cbn; rewrite app_length, L; cbn; lia].
    rewrite Eo. apply bytes_ok_app; [repeat constructor; unfold is_byte; lia|]. apply bytes_ok_app; [assumption|apply enc32_ok].
  - cbn [new2 set_length2 i2_payload]. rewrite <- (app_nil_r (s1udf_octets f)). apply P; [exact Hf|constructor].
  - rewrite Eo. destruct (cells16 a (conj L B)) as (a0&a1&a2&a3&a4&a5&a6&a7&a8&a9&b0&b1&b2&b3&b4&b5& ->). reflexivity.
  - unfold acc_ipv6. rewrite Eo. destruct (cells16 a (conj L B)) as (a0&a1&a2&a3&a4&a5&a6&a7&a8&a9&b0&b1&b2&b3&b4&b5& ->). reflexivity.
Qed.
Lemma s103_v4_all ip a key ebis : ip_arg_ok ip -> key < 2 ^ 32 -> Forall (fun e => e < 16) ebis -> (len ebis < 256)%nat ->
  to4 ip = Some a ->
  exists i, made g (new_s103 g ip key ebis) 90 ([4] ++ a ++ enc32 key ++ [N.of_nat (len ebis)] ++ ebis) i /\
    s103_parse (i2_payload i) = Ok (S103 4 a key (N.of_nat (len ebis)) ebis) /\
    acc_ip i = Ok (Some a) /\ acc_ipv4 i = Ok a /\ acc_gre_key i = Ok key /\ acc_ebis i = Ok ebis.
Proof.
  intros Hi Hk He Hl E. destruct (to4_octets ip a Hi E) as [L B].
  assert (Be : bytes_ok ebis) by (eapply Forall_impl; [|exact He]; unfold is_byte; intros; lia).
  set (f := S103 4 a key (N.of_nat (len ebis)) ebis).
  assert (Hf : s103_ok f).
  { unfold s103_ok. cbn. rewrite L. repeat split; try assumption. cbn. lia. }
  assert (Eo : s103_octets f = [4] ++ a ++ enc32 key ++ [N.of_nat (len ebis)] ++ ebis) by (unfold s103_octets; cbn [f s3_key s3_addr s3_ebis]; rewrite L; reflexivity).
  exists (new2 g 90 0 (s103_octets f)).
  assert (Eu : u8 (N.of_nat (len ebis)) = N.of_nat (len ebis)) by (unfold u8; apply N.mod_small; lia).
  split; [|split].
  - rewrite <- Eo. unfold new_s103, new_s103_fields. rewrite (addr_fields4 ip a E). cbn [fst snd]. rewrite Eu.
    apply new_or_nil_made; [apply s103_marshal_spec; [exact Hf|exact He]|lia| |rewrite Eo; len_tac].
    rewrite Eo. apply bytes_ok_app; [repeat constructor; unfold is_byte; lia|]. apply bytes_ok_app; [assumption|].
    apply bytes_ok_app; [apply enc32_ok|]. apply bytes_ok_app; [|assumption]. repeat constructor. unfold is_byte. lia.
  - cbn [new2 set_length2 i2_payload]. rewrite <- (app_nil_r (s103_octets f)). apply s103_parse_spec, Hf.
  - rewrite Eo. destruct (cells4 a (conj L B)) as (x & y & z & w & ->). unfold acc_gre_key, acc_ebis, typed, acc_ipv4, acc_ip. ty. cbn [enc32]. run.
    rewrite enc32_back, Nat2N.id, firstn_all by assumption. auto.
Qed.
Lemma s103_v6_all ip a key ebis : ip_arg_ok ip -> key < 2 ^ 32 -> Forall (fun e => e < 16) ebis -> (len ebis < 256)%nat ->
  to4 ip = None -> to16 ip = Some a ->
  exists i, made g (new_s103 g ip key ebis) 90 ([16] ++ a ++ enc32 key ++ [N.of_nat (len ebis)] ++ ebis) i /\
    s103_parse (i2_payload i) = Ok (S103 16 a key (N.of_nat (len ebis)) ebis) /\
    acc_ip i = Ok (Some a) /\ acc_ipv6 i = Ok a /\ acc_gre_key i = Ok key /\ acc_ebis i = Ok ebis.
Proof.
  intros Hi Hk He Hl E4 E. destruct (to16_octets ip a Hi E) as [L B].
  assert (Be : bytes_ok ebis) by (eapply Forall_impl; [|exact He]; unfold is_byte; intros; lia).
  set (f := S103 16 a key (N.of_nat (len ebis)) ebis).
  assert (Hf : s103_ok f).
  { unfold s103_ok. cbn. rewrite L. repeat split; try assumption. cbn. lia. }
  assert (Eo : s103_octets f = [16] ++ a ++ enc32 key ++ [N.of_nat (len ebis)] ++ ebis) by (unfold s103_octets; cbn [f s3_key s3_addr s3_ebis]; rewrite L; reflexivity).
  exists (new2 g 90 0 (s103_octets f)).
  assert (Eu : u8 (N.of_nat (len ebis)) = N.of_nat (len ebis)) by (unfold u8; apply N.mod_small; lia).
  split; [|split].
  - rewrite <- Eo. unfold new_s103, new_s103_fields. rewrite (addr_fields16 ip a E4 E). cbn [fst snd]. rewrite Eu.
    apply new_or_nil_made; [apply s103_marshal_spec; [exact Hf|exact He]|lia| |rewrite Eo; len_tac].
    rewrite Eo. apply bytes_ok_app; [repeat constructor; unfold is_byte; lia|]. apply bytes_ok_app; [assumption|].
    apply bytes_ok_app; [apply enc32_ok|]. apply bytes_ok_app; [|assumption]. repeat constructor. unfold is_byte. lia.
  - cbn [new2 set_length2 i2_payload]. rewrite <- (app_nil_r (s103_octets f)). apply s103_parse_spec, Hf.
  - rewrite Eo. destruct (cells16 a (conj L B)) as (a0&a1&a2&a3&a4&a5&a6&a7&a8&a9&b0&b1&b2&b3&b4&b5& ->). unfold acc_gre_key, acc_ebis, typed, acc_ipv6, acc_ip. ty. cbn [enc32]. run.
    rewrite enc32_back, Nat2N.id, firstn_all by assumption. auto.
Qed.
End G.
