(** Proofs about V2Codec.v: QoS, cause, flag octets, one-value IEs. *)
From Verif Require Import Base BaseLemmas Utils UtilsProofs V2IE V2IESpec V2IEProofs V2Codec CodecSpec V2CodecProofs V2CodecProofs3.
Open Scope N_scope.
Open Scope list_scope.

Lemma enc40_back v : v < 2 ^ 40 -> uint40to64 (enc40 v) = v.
Proof.
  intros H. rewrite <- uint64to40_enc, uint40_roundtrip. change (2 ^ 40) with 1099511627776 in H. lia.
Qed.
Lemma uint40_cells a b c d e : a < 256 -> b < 256 -> c < 256 -> d < 256 -> e < 256 ->
  enc40 (uint40to64 [a; b; c; d; e]) = [a; b; c; d; e] /\ uint40to64 [a; b; c; d; e] < 2 ^ 40.
Proof.
  intros. split.
  - rewrite <- uint64to40_enc. apply uint40_inverse; [repeat constructor; assumption|reflexivity].
  - rewrite uint40_val by assumption. change (2 ^ 40) with 1099511627776. lia.
Qed.
Lemma enc40_cells a b c d e : a < 256 -> b < 256 -> c < 256 -> d < 256 -> e < 256 ->
  enc40 (uint40to64 [a; b; c; d; e]) = [a; b; c; d; e].
Proof. intros. apply uint40_cells; assumption. Qed.
Ltac r40 v := match goal with |- context [uint40to64 ?l] => change (uint40to64 l) with (uint40to64 (enc40 v)) end.

(** ** AMBR *)
Definition ambr_marshal (f : N * N) : res bytes :=
  do b <- on_slice (zeros 8) 0 4 (put32 (fst f)); on_slice b 4 8 (put32 (snd f)).
Lemma ambr_codec : exact_codec ambr_ok ambr_octets no_spare ambr_marshal ambr_parse.
Proof.
  split; [|split; [|split]].
  - intros [u d] _. reflexivity.
  - intros [u d] rest [Hu Hd] _. cbn [fst snd] in Hu, Hd. unfold ambr_parse, ambr_octets. run.
    rewrite !enc32_back by assumption. reflexivity.
  - intros b f Hb. unfold ambr_parse.
    do 8 (destruct b as [|? b]; [run; discriminate|]). bytes_split. run.
    intros E; apply Ok_inj in E; subst f. unfold ambr_ok, ambr_octets. cbn [fst snd].
    rewrite !(fun a b c d A B C D => proj1 (be32_of_cells a b c d A B C D)) by assumption.
    split; [split; apply be32_of_cells; assumption|exists b; reflexivity].
  - intros b. change (safe (ambr_parse b)). unfold ambr_parse. safe_tac.
Qed.

(** ** Bearer QoS and Flow QoS *)
Lemma bqos_codec : exact_codec bqos_ok bqos_octets no_spare bqos_marshal bqos_parse.
Proof.
  split; [|split; [|split]].
  - intros [a q u d u' d'] _. unfold bqos_marshal, bqos_mto, bqos_octets.
    cbn [bq_arp bq_qci bq_umbr bq_dmbr bq_ugbr bq_dgbr]. rewrite !uint64to40_enc. reflexivity.
  - intros [a q u d u' d'] rest (Ha & Hq & H1 & H2 & H3 & H4) _. unfold bqos_parse, bqos_octets.
    cbn [bq_arp bq_qci bq_umbr bq_dmbr bq_ugbr bq_dgbr] in *. run.
    rewrite <- (enc40_back u H1) at 6. rewrite <- (enc40_back d H2) at 6.
    rewrite <- (enc40_back u' H3) at 6. rewrite <- (enc40_back d' H4) at 6. reflexivity.
  - intros b f Hb. unfold bqos_parse.
    do 22 (destruct b as [|? b]; [run; discriminate|]). bytes_split. run.
    intros E; apply Ok_inj in E; subst f. unfold bqos_ok, bqos_octets. cbn [bq_arp bq_qci bq_umbr bq_dmbr bq_ugbr bq_dgbr].
    rewrite !enc40_cells by assumption.
    split; [|exists b; reflexivity]. repeat split; try assumption; apply uint40_cells; assumption.
  - intros b. change (safe (bqos_parse b)). unfold bqos_parse. safe_tac.
Qed.
Lemma fqos_codec : exact_codec fqos_ok fqos_octets no_spare fqos_marshal fqos_parse.
Proof.
  split; [|split; [|split]].
  - intros [q u d u' d'] _. unfold fqos_marshal, fqos_mto, fqos_octets.
    cbn [fq_qci fq_umbr fq_dmbr fq_ugbr fq_dgbr]. rewrite !uint64to40_enc. reflexivity.
  - intros [q u d u' d'] rest (Hq & H1 & H2 & H3 & H4) _. unfold fqos_parse, fqos_octets.
    cbn [fq_qci fq_umbr fq_dmbr fq_ugbr fq_dgbr] in *. run.
    rewrite <- (enc40_back u H1) at 6. rewrite <- (enc40_back d H2) at 6.
    rewrite <- (enc40_back u' H3) at 6. rewrite <- (enc40_back d' H4) at 6. reflexivity.
  - intros b f Hb. unfold fqos_parse.
    do 21 (destruct b as [|? b]; [run; discriminate|]). bytes_split. run.
    intros E; apply Ok_inj in E; subst f. unfold fqos_ok, fqos_octets. cbn [fq_qci fq_umbr fq_dmbr fq_ugbr fq_dgbr].
    rewrite !enc40_cells by assumption.
    split; [|exists b; reflexivity]. repeat split; try assumption; apply uint40_cells; assumption.
  - intros b. change (safe (fqos_parse b)). unfold fqos_parse. safe_tac.
Qed.
Lemma arp_octet_spec pci pl pvi : pci < 2 -> pl < 16 -> pvi < 2 ->
  arp_octet pci pl pvi = arp_spec pci pl pvi /\ arp_spec pci pl pvi < 256 /\
  hasbit 0 (arp_spec pci pl pvi) = (pvi =? 1) /\ hasbit 6 (arp_spec pci pl pvi) = (pci =? 1) /\
  N.shiftr (N.land (arp_spec pci pl pvi) 60) 2 = pl.
Proof.
  intros Hc Hl Hv.
  pose proof (below_sweep 16 (fun pl => forallb (fun pci => forallb (fun pvi =>
     let x := arp_spec pci pl pvi in
     (arp_octet pci pl pvi =? x) && (x <? 256) && Bool.eqb (hasbit 0 x) (pvi =? 1) &&
     Bool.eqb (hasbit 6 x) (pci =? 1) && (N.shiftr (N.land x 60) 2 =? pl)) (below 2)) (below 2)) eq_refl pl Hl) as E.
  cbv beta in E. rewrite forallb_forall in E. specialize (E pci (below_complete 2 pci Hc)).
  rewrite forallb_forall in E. specialize (E pvi (below_complete 2 pvi Hv)). cbv zeta in E.
  repeat (apply andb_prop in E; destruct E as [E ?]).
  repeat match goal with H : Bool.eqb _ _ = true |- _ => apply eqb_prop in H; rewrite H end.
  repeat split; lia.
Qed.

Section G.
Context (g : N -> bool).
Lemma made_codec {A} (wf : A -> Prop) oct clear marshal parse t a :
  exact_codec wf oct clear marshal parse -> wf a -> t < 256 -> bytes_ok (oct a) ->
  (len (oct a) < N.to_nat 65536)%nat ->
  made g (new_or_nil g t (marshal a)) t (oct a) (new2 g t 0 (oct a)) /\
  parse (i2_payload (new2 g t 0 (oct a))) = Ok a.
Proof.
  intros (M & P & _) Hw Ht Hb Hl. split; [apply new_or_nil_made; auto|].
  cbn [new2 set_length2 i2_payload]. rewrite <- (app_nil_r (oct a)). apply P; [assumption|constructor].
Qed.
Lemma ambr_all up down : up < 2 ^ 32 -> down < 2 ^ 32 ->
  exists i, made g (new_ambr g up down) 72 (enc32 up ++ enc32 down) i /\
    acc_ambr i = Ok (up, down) /\ acc_ambr_up i = Ok up /\ acc_ambr_down i = Ok down.
Proof.
  intros Hu Hd.
  destruct (made_codec _ _ _ _ _ 72 (up, down) ambr_codec (conj Hu Hd)) as [M P]; try lia.
  { apply bytes_ok_app; apply enc32_ok. } { cbn. lia. }
  eexists. split; [exact M|]. unfold acc_ambr, acc_ambr_up, acc_ambr_down. rewrite !typed_new2.
  split; [exact P|]. ty. unfold ambr_octets. run. rewrite !enc32_back by assumption. auto.
Qed.
Lemma arp_all pci pl pvi : g 155 = false -> pci < 2 -> pl < 16 -> pvi < 2 ->
  let i := new_arp g pci pl pvi in
  made g (Ok (Some i)) 155 [arp_spec pci pl pvi] i /\
  acc_priority_level g i = Ok pl /\ has_pci g i = (pci =? 1) /\ has_pvi g i = (pvi =? 1).
Proof.
  intros Hg Hc Hl Hv. destruct (arp_octet_spec pci pl pvi Hc Hl Hv) as (E & L & B0 & B6 & P). intros i.
  assert (A : acc_arp g i = Ok (arp_spec pci pl pvi)).
  { unfold acc_arp, i, new_arp. rewrite typed_new2. unfold value_u8. ty. rewrite Hg, E. reflexivity. }
  split. { unfold i, new_arp. rewrite E. apply new2_made; [lia|repeat constructor; assumption|cbn; lia]. }
  unfold acc_priority_level, has_pci, has_pvi. rewrite A. unfold i, new_arp. ty. cbn [bind flag_of].
  rewrite P, B0, B6. auto.
Qed.
Lemma bqos_octets_ok f : bqos_ok f -> bytes_ok (bqos_octets f) /\ len (bqos_octets f) = 22%nat.
Proof.
  intros (Ha & Hq & _). split; [|reflexivity]. unfold bqos_octets.
  repeat apply bytes_ok_app; try apply enc40_ok. repeat constructor; assumption.
Qed.
Lemma fqos_octets_ok f : fqos_ok f -> bytes_ok (fqos_octets f) /\ len (fqos_octets f) = 21%nat.
Proof.
  intros (Hq & _). split; [|reflexivity]. unfold fqos_octets.
  repeat apply bytes_ok_app; try apply enc40_ok. repeat constructor; assumption.
Qed.
Lemma bqos_all pci pl pvi qci umbr dmbr ugbr dgbr :
  g 80 = false -> pci < 2 -> pl < 16 -> pvi < 2 -> qci < 256 ->
  umbr < 2 ^ 40 -> dmbr < 2 ^ 40 -> ugbr < 2 ^ 40 -> dgbr < 2 ^ 40 ->
  let f := BQos (arp_spec pci pl pvi) qci umbr dmbr ugbr dgbr in
  exists i, made g (new_bqos g pci pl pvi qci umbr dmbr ugbr dgbr) 80 (bqos_octets f) i /\
    acc_bqos g i = Ok f /\ acc_priority_level g i = Ok pl /\ acc_qci g i = Ok qci /\
    acc_umbr i = Ok umbr /\ acc_dmbr i = Ok dmbr /\ acc_ugbr i = Ok ugbr /\ acc_dgbr i = Ok dgbr.
Proof.
  intros Hg Hc Hl Hv Hq H1 H2 H3 H4 f. destruct (arp_octet_spec pci pl pvi Hc Hl Hv) as (E & L & _ & _ & P).
  assert (Hf : bqos_ok f) by (repeat split; assumption).
  destruct (bqos_octets_ok f Hf) as [B Lb].
  destruct (made_codec _ _ _ _ _ 80 f bqos_codec Hf) as [M Pq]; [lia|assumption|lia|].
  assert (A : acc_bqos g (new2 g 80 0 (bqos_octets f)) = Ok f) by (unfold acc_bqos; rewrite via_new2; exact Pq).
  eexists. split; [unfold new_bqos; rewrite E; exact M|].
  split; [exact A|]. split. { unfold acc_priority_level. rewrite A. ty. cbn [bind f bq_arp]. rewrite P. reflexivity. }
  unfold acc_qci, acc_umbr, acc_dmbr, acc_ugbr, acc_dgbr, rate, value_u8. ty. rewrite Lb.
  unfold bqos_octets. cbn [f bq_arp bq_qci bq_umbr bq_dmbr bq_ugbr bq_dgbr].
  split; [reflexivity|]. run.
  rewrite <- (enc40_back umbr H1) at 6. rewrite <- (enc40_back dmbr H2) at 6.
  rewrite <- (enc40_back ugbr H3) at 6. rewrite <- (enc40_back dgbr H4) at 6. auto.
Qed.
Lemma fqos_all qci umbr dmbr ugbr dgbr :
  g 81 = false -> qci < 256 -> umbr < 2 ^ 40 -> dmbr < 2 ^ 40 -> ugbr < 2 ^ 40 -> dgbr < 2 ^ 40 ->
  let f := FQos qci umbr dmbr ugbr dgbr in
  exists i, made g (new_fqos g qci umbr dmbr ugbr dgbr) 81 (fqos_octets f) i /\
    acc_fqos i = Ok f /\ acc_qci g i = Ok qci /\
    acc_dmbr i = Ok dmbr /\ acc_ugbr i = Ok ugbr /\ acc_dgbr i = Ok dgbr.
Proof.
  intros Hg Hq H1 H2 H3 H4 f.
  assert (Hf : fqos_ok f) by (repeat split; assumption).
  destruct (fqos_octets_ok f Hf) as [B Lb].
  destruct (made_codec _ _ _ _ _ 81 f fqos_codec Hf) as [M Pq]; [lia|assumption|lia|].
  eexists. split; [exact M|]. split; [unfold acc_fqos; rewrite typed_new2; exact Pq|].
  unfold acc_qci, acc_dmbr, acc_ugbr, acc_dgbr, rate, value_u8. ty. rewrite Hg, Lb.
  unfold fqos_octets. cbn [f fq_qci fq_umbr fq_dmbr fq_ugbr fq_dgbr].
  split; [reflexivity|]. run. rewrite <- (enc40_back dmbr H2) at 6.
  rewrite <- (enc40_back ugbr H3) at 6. rewrite <- (enc40_back dgbr H4) at 6. auto.
Qed.
End G.
