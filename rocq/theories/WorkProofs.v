(** Counting calls: the counted parser agrees with the uncounted one, and bounds on the counts. *)
From Coq Require Import String.
From Verif Require Import Base BaseLemmas Utils UtilsProofs V2IE V2IESpec V2IEProofs V2Header V2HeaderProofs
  TvIE MsgModel MsgProofs V2Msg Work WorkSpec.
Open Scope list_scope.

Lemma snd_after {A} c (r : run A) : snd (after c r) = snd r. Proof. reflexivity. Qed.
Lemma snd_andthen {A B} (r : run A) (f : A -> run B) : snd (andthen r f) = bind (snd r) (fun a => snd (f a)).
Proof. unfold andthen. destruct r as [c [a|e|]]; reflexivity. Qed.
Lemma andthen_pure {A B} (r : res A) (f : A -> run B) :
  andthen (pure r) f = match r with Ok a => f a | Err e => (none, Err e) | Panic => (none, Panic) end.
Proof. destruct r as [a|e|]; try reflexivity. cbn. unfold after. destruct (f a) as [[u l] o]. reflexivity. Qed.

Section G.
Context (g : N -> bool).
Notation mlen := (mlen2 g).
Notation wf := (wf2 g).

Lemma multi_w_unfold f b : b <> [] -> multi2_w g (S f) b =
  andthen (parse2_w g f b) (fun i =>
  after (Calls 0 (len_calls g i)) (
  andthen (pure (slice_from b (mlen2 g i))) (fun b' =>
  andthen (multi2_w g f b') (fun r => pure (Ok (i :: r)))))).
Proof. intros H. destruct b; [contradiction|reflexivity]. Qed.
Lemma parse_w_unfold f b : parse2_w g (S f) b = after (Calls 1 0) (
      if (len b <? 4)%nat then pure (Err EUnexpectedEOF) else
      andthen (pure (idx b 0)) (fun t =>
      andthen (pure (slice b 1 3)) (fun s =>
      andthen (pure (be16 s)) (fun l =>
      if (Z.of_nat (len b) - 4 <? Z.of_N l)%Z then pure (Err EInvalidLength) else
      andthen (pure (idx b 3)) (fun n =>
      andthen (pure (slice b 4 (4 + N.to_nat l))) (fun p =>
      if g t then andthen (multi2_w g f p) (fun cs => pure (Ok (IE2 t l n p cs)))
      else pure (Ok (IE2 t l n p [])))))))).
Proof. reflexivity. Qed.

Lemma erase fuel : (forall b, snd (parse2_w g fuel b) = parse2_f g fuel b) /\
  (forall b, snd (multi2_w g fuel b) = multi2_f g fuel b).
Proof.
  induction fuel as [|f [IHp IHm]]; [split; reflexivity|]. split; intros b.
  - rewrite parse_w_unfold. cbn [parse2_f]. rewrite snd_after. destruct (len b <? 4)%nat; [reflexivity|].
    rewrite andthen_pure. destruct (idx b 0) as [t|e|]; [|reflexivity..]. cbn [bind].
    rewrite andthen_pure. destruct (slice b 1 3) as [s|e|]; [|reflexivity..]. cbn [bind].
    rewrite andthen_pure. destruct (be16 s) as [l|e|]; [|reflexivity..]. cbn [bind].
    destruct (_ <? _)%Z; [reflexivity|].
    rewrite andthen_pure. destruct (idx b 3) as [n|e|]; [|reflexivity..]. cbn [bind].
    rewrite andthen_pure. destruct (slice b 4 _) as [p|e|]; [|reflexivity..]. cbn [bind].
    destruct (g t); [|reflexivity]. rewrite snd_andthen, IHm. reflexivity.
  - destruct b as [|x r]; [reflexivity|]. rewrite multi_w_unfold, multi_unfold by discriminate.
    rewrite snd_andthen, IHp. destruct (parse2_f g f (x :: r)) as [i|e|]; [|reflexivity..]. cbn [bind].
    rewrite snd_after, andthen_pure. destruct (slice_from _ _) as [b'|e|]; [|reflexivity..]. cbn [bind].
    rewrite snd_andthen, IHm. reflexivity.
Qed.

(** ** Sizes *)
Lemma count_le i : wf i -> (4 * ie_count i <= mlen i)%nat.
Proof.
  induction i as [t l n p c IH] using ie2_ind'. intros H. inversion H as [t' l' n' p' Hg Ht Hn Hp Hl He | t' l' n' p' c' Hg Ht Hn Hl He Hp Hc]; subst.
  - cbn [ie_count mlen2]. rewrite Hg. cbn [map list_sum fold_right]. lia.
  - cbn [ie_count mlen2]. rewrite Hg.
    assert (4 * list_sum (map ie_count c) <= list_sum (map (mlen2 g) c))%nat.
    { rewrite Forall_forall in *. clear -IH Hc. induction c as [|x c IHc]; [cbn; lia|].
      cbn [map list_sum fold_right]. change (fold_right Nat.add 0%nat) with list_sum.
      assert (4 * ie_count x <= mlen2 g x)%nat by (apply IH; [left; reflexivity|apply Hc; left; reflexivity]).
      assert (4 * list_sum (map ie_count c) <= list_sum (map (mlen2 g) c))%nat; [|lia].
      apply IHc; intros; [apply IH; [right|]|apply Hc; right]; assumption. }
    lia.
Qed.
Lemma depth_count i : (ie_depth i <= ie_count i)%nat.
Proof.
  induction i as [t l n p c IH] using ie2_ind'. cbn [ie_depth ie_count].
  assert (list_max (map ie_depth c) <= list_sum (map ie_count c))%nat; [|lia].
  apply list_max_le. rewrite Forall_map. rewrite Forall_forall in *. intros x Hx.
  specialize (IH x Hx). etransitivity; [exact IH|]. clear -Hx.
  induction c as [|y c IHc]; [contradiction|]. cbn [map list_sum fold_right]. change (fold_right Nat.add 0%nat) with list_sum.
  destruct Hx as [->|Hx]; [lia|]. specialize (IHc Hx). lia.
Qed.
Lemma len_calls_count i : wf i -> len_calls g i = ie_count i.
Proof.
  induction i as [t l n p c IH] using ie2_ind'. intros H. inversion H as [t' l' n' p' Hg Ht Hn Hp Hl He | t' l' n' p' c' Hg Ht Hn Hl He Hp Hc]; subst.
  - cbn [len_calls ie_count]. rewrite Hg. reflexivity.
  - cbn [len_calls ie_count]. rewrite Hg. do 2 f_equal. apply map_ext_in. intros x Hx.
    rewrite Forall_forall in *. apply IH; auto.
Qed.
Lemma counts_le c : Forall wf c -> (4 * list_sum (map ie_count c) <= len (flat_map (wire2 g) c))%nat.
Proof.
  induction 1 as [|x c Hx Hc IH]; [cbn; lia|].
  cbn [map list_sum fold_right flat_map]. change (fold_right Nat.add 0%nat) with list_sum.
  rewrite app_length, len_wire. pose proof (count_le x Hx). lia.
Qed.

(** ** Calls, whatever the outcome *)
Definition pcost (b : bytes) (c : calls) (r : res ie2) : Prop :=
  match r with
  | Ok i => exists q, b = wire2 g i ++ q /\ (4 * n_unm c <= mlen i)%nat /\ (16 * n_len c <= (mlen i - 4) * (mlen i - 4))%nat
  | _ => (4 * n_unm c <= len b + 4)%nat /\ (16 * n_len c <= len b * len b)%nat
  end.
Definition mcost (b : bytes) (c : calls) (r : res (list ie2)) : Prop :=
  (4 * n_unm c <= len b + match r with Ok _ => 0 | _ => 4 end)%nat /\ (16 * n_len c <= len b * len b)%nat.

Lemma cost fuel :
  (forall b, bytes_ok b -> pcost b (fst (parse2_w g fuel b)) (snd (parse2_w g fuel b))) /\
  (forall b, bytes_ok b -> mcost b (fst (multi2_w g fuel b)) (snd (multi2_w g fuel b))).
Proof.
  induction fuel as [|f [IHp IHm]].
  { split; intros b Hb; cbn; unfold mcost; cbn; lia. }
  split; intros b Hb.
  - pose proof (proj1 (erase (S f)) b) as ER.
    assert (F : forall x, (4 <= len b)%nat \/ (x <= 4)%nat -> (4 * 1 <= len b + 4)%nat) by (intros; lia).
    destruct (parse2_w g (S f) b) as [c o] eqn:EW. cbn [fst snd] in *.
    rewrite parse_w_unfold in EW.
    destruct (len b <? 4)%nat eqn:E4. { injection EW as <- <-. cbn. lia. }
    apply Nat.ltb_ge in E4.
    rewrite !andthen_pure in EW.
    destruct (idx b 0) as [t|e|] eqn:E0; [|injection EW as <- <-; cbn; lia..].
    rewrite !andthen_pure in EW.
    destruct (slice b 1 3) as [s|e|] eqn:E1; [|injection EW as <- <-; cbn; lia..].
    rewrite !andthen_pure in EW.
    destruct (be16 s) as [l|e|] eqn:E2; [|injection EW as <- <-; cbn; lia..].
    destruct (_ <? _)%Z eqn:EL; [injection EW as <- <-; cbn; lia|]. apply Z.ltb_ge in EL.
    rewrite !andthen_pure in EW.
    destruct (idx b 3) as [n|e|] eqn:E3; [|injection EW as <- <-; cbn; lia..].
    rewrite !andthen_pure in EW.
    destruct (slice b 4 (4 + N.to_nat l)) as [p|e|] eqn:E5; [|injection EW as <- <-; cbn; lia..].
    pose proof (slice_bytes_ok _ _ _ _ Hb E5) as Hp.
    pose proof (slice_inv _ _ _ _ E5) as (_ & Hl2 & _ & Hl4).
    assert (HLP : (len p + 4 <= len b)%nat) by lia.
    assert (HPP : (len p * len p <= len b * len b)%nat) by (apply Nat.mul_le_mono; lia).
    destruct (g t) eqn:Eg.
    + destruct (multi2_w g f p) as [cm om] eqn:EM.
      pose proof (IHm p Hp) as HM. rewrite EM in HM. cbn [fst snd] in HM. destruct HM as [HM1 HM2].
      unfold andthen in EW. cbn [fst snd] in EW.
      destruct om as [cs|e|].
      * cbn in EW. injection EW as <- <-. symmetry in ER.
        pose proof (proj1 (parse_inv_aux g _) _ _ Hb ER) as [Hwf (q & Hq)].
        cbn [pcost]. exists q. split; [exact Hq|].
        cbn [n_unm n_len plus]. rewrite !Nat.add_0_r.
        pose proof (wf_mlen g _ Hwf) as [-> _]. cbn [i2_payload].
        rewrite !Nat.add_0_r in HM1. replace (4 + len p - 4)%nat with (len p) by lia. lia.
      * cbn in EW. injection EW as <- <-. cbn [pcost plus n_unm n_len]. rewrite !Nat.add_0_l. cbv beta iota in HM1. lia.
      * cbn in EW. injection EW as <- <-. cbn [pcost plus n_unm n_len]. rewrite !Nat.add_0_l. cbv beta iota in HM1. lia.
    + cbn in EW. injection EW as <- <-. symmetry in ER.
      pose proof (proj1 (parse_inv_aux g _) _ _ Hb ER) as [Hwf (q & Hq)].
      exists q. split; [exact Hq|]. cbn [n_unm n_len plus]. pose proof (mlen_ge4 g (IE2 t l n p [])). cbn [none n_unm n_len]. clear -H. nia.
  - destruct b as [|x r]; [cbn; unfold mcost; cbn; lia|].
    rewrite multi_w_unfold by discriminate.
    destruct (parse2_w g f (x :: r)) as [cp op] eqn:EP.
    pose proof (IHp _ Hb) as HP. rewrite EP in HP. cbn [fst snd] in HP.
    pose proof (proj1 (erase f) (x :: r)) as ER. rewrite EP in ER. cbn [snd] in ER.
    set (b := x :: r) in *. clearbody b. clear x r.
    destruct op as [i|e|]; [|exact HP..].
    destruct HP as (q & Hq & H1 & H2).
    symmetry in ER. pose proof (proj1 (parse_inv_aux g _) _ _ Hb ER) as [Hwf _].
    pose proof (count_le i Hwf) as HC. rewrite <- len_calls_count in HC by assumption.
    pose proof (mlen_ge4 g i) as H4.
    assert (HL : (len b = mlen i + len q)%nat) by (rewrite Hq, app_length, len_wire; reflexivity).
    assert (HS : slice_from b (mlen i) = Ok q).
    { rewrite Hq at 1. unfold slice_from. rewrite app_length, len_wire.
      replace (mlen i <=? mlen i + len q)%nat with true by (symmetry; apply Nat.leb_le; lia).
      rewrite skipn_app_exact by (symmetry; apply len_wire). reflexivity. }
    match goal with |- mcost _ (fst ?r) _ =>
      assert (HR : r = after cp (after (Calls 0 (len_calls g i)) (andthen (multi2_w g f q) (fun z => pure (Ok (i :: z))))))
        by (unfold andthen at 1; cbn [fst snd]; rewrite andthen_pure, HS; reflexivity) end.
    rewrite HR; clear HR.
    assert (Hqo : bytes_ok q) by (rewrite Hq in Hb; apply Forall_app in Hb; tauto).
    destruct (multi2_w g f q) as [cm om] eqn:EM.
    pose proof (IHm q Hqo) as HM. rewrite EM in HM. cbn [fst snd] in HM. destruct HM as [HM1 HM2].
    assert (SQ : forall a c d, (16 * a <= (mlen i - 4) * (mlen i - 4) -> 4 * c <= mlen i -> 16 * d <= len q * len q ->
      16 * (a + (c + d)) <= (mlen i + len q) * (mlen i + len q))%nat).
    { clear -H4. intros a c d A C D. destruct (Nat.le_exists_sub _ _ H4) as (k & E & _). rewrite E in *.
      replace (k + 4 - 4)%nat with k in A by lia. nia. }
    unfold mcost, andthen, after. cbn [fst snd plus n_unm n_len].
    destruct om as [cs|e|]; cbn [fst snd plus n_unm n_len pure none]; rewrite HL;
      rewrite ?Nat.add_0_r, ?Nat.add_0_l; rewrite ?Nat.add_0_r in HM1; (split; [lia|apply SQ; lia]).
Qed.

(** ** The chain *)
Lemma nest_len d : len (nest d) = (4 * d)%nat.
Proof. induction d; [reflexivity|]. cbn [nest List.length]. lia. Qed.
Lemma nest_ok d : (d <= N.to_nat 16384)%nat -> bytes_ok (nest d).
Proof.
  induction d as [|d IH]; intros H; [constructor|]. cbn [nest].
  apply bytes_ok_cons; [reflexivity|]. apply bytes_ok_cons; [|apply bytes_ok_cons; [|apply bytes_ok_cons; [reflexivity|apply IH; lia]]].
  - apply N.div_lt_upper_bound; lia.
  - apply N.mod_lt. lia.
Qed.
Fixpoint nest_ie (d : nat) : list ie2 :=
  match d with
  | O => []
  | S d' => [IE2 93 (N.of_nat (4 * d')) 0 (nest d') (nest_ie d')]
  end.
End G.

(** the nested IEs as the parser sees them *)
Section Nest.
Context (g : N -> bool) (Hg : g 93 = true).
Lemma nest_wf d : (d <= N.to_nat 16384)%nat -> Forall (wf2 g) (nest_ie d) /\ flat_map (wire2 g) (nest_ie d) = nest d.
Proof.
  induction d as [|d IH]; intros H; [split; [constructor|reflexivity]|].
  destruct IH as [IH1 IH2]; [lia|]. cbn [nest_ie]. split.
  - constructor; [|constructor]. apply wf2_grouped; try assumption; try lia.
    + rewrite nest_len. lia.
    + symmetry. exact IH2.
  - cbn [flat_map wire2]. rewrite Hg, IH2, app_nil_r. cbn [nest app]. unfold enc16. cbn [app].
    rewrite (N.mod_small (N.of_nat (4 * d) / 256)); [reflexivity|]. apply N.div_lt_upper_bound; lia.
Qed.
Lemma nest_count d : list_sum (map ie_count (nest_ie d)) = d.
Proof. induction d as [|d IH]; [reflexivity|]. cbn [nest_ie map ie_count list_sum fold_right]. change (fold_right Nat.add 0%nat) with list_sum. rewrite IH. lia. Qed.
Lemma nest_cost d : (d <= N.to_nat 16384)%nat -> forall fuel, (4 * d + 2 <= fuel)%nat ->
  multi2_w g fuel (nest d) = (Calls d (list_sum (seq 1 d)), Ok (nest_ie d)).
Proof.
  induction d as [|d IH]; intros Hd fuel Hf.
  { destruct fuel; [lia|]. reflexivity. }
  destruct fuel as [|f]; [lia|]. rewrite multi_w_unfold by discriminate.
  destruct f as [|f]; [lia|].
  pose proof (nest_wf (S d) Hd) as [Hwf Hw].
  pose proof (nest_ok (S d) Hd) as Hok.
  assert (H1 : wf2 g (IE2 93 (N.of_nat (4 * d)) 0 (nest d) (nest_ie d))).
  { rewrite Forall_forall in Hwf. apply Hwf. left. reflexivity. }
  assert (HP : parse2_w g (S f) (nest (S d)) = (Calls (S d) (list_sum (seq 1 d)), Ok (IE2 93 (N.of_nat (4 * d)) 0 (nest d) (nest_ie d)))).
  { rewrite parse_w_unfold. set (B := nest (S d)) in *.
    assert (HB : B = 93 :: N.of_nat (4 * d) / 256 :: N.of_nat (4 * d) mod 256 :: 0 :: nest d) by reflexivity.
    assert (HL : len B = (4 + 4 * d)%nat) by (rewrite HB; cbn [List.length]; rewrite nest_len; reflexivity).
    assert (E2 : N.of_nat (4 * d) / 256 * 256 + N.of_nat (4 * d) mod 256 = N.of_nat (4 * d)).
    { rewrite N.mul_comm. symmetry. apply N.div_mod. discriminate. }
    replace (len B <? 4)%nat with false by (symmetry; apply Nat.ltb_ge; lia).
    rewrite andthen_pure, HB. cbn [idx nth_error]. rewrite andthen_pure.
    change (slice _ 1 3) with (Ok [N.of_nat (4 * d) / 256; N.of_nat (4 * d) mod 256]).
    cbv beta iota. rewrite andthen_pure. cbn [be16]. rewrite E2, <- HB.
    replace (Z.of_nat (len B) - 4 <? Z.of_N (N.of_nat (4 * d)))%Z with false by (symmetry; apply Z.ltb_ge; lia).
    rewrite andthen_pure. replace (idx B 3) with (Ok 0) by (rewrite HB; reflexivity). cbv beta iota.
    rewrite andthen_pure. rewrite Nat2N.id.
    assert (HS : slice B 4 (4 + 4 * d) = Ok (nest d)).
    { unfold slice. rewrite HL. rewrite !Nat.leb_refl.
      replace (4 <=? 4 + 4 * d)%nat with true by (symmetry; apply Nat.leb_le; lia). cbn [andb].
      rewrite HB. change (skipn 4 (_ :: _ :: _ :: _ :: nest d)) with (nest d).
      replace (4 + 4 * d - 4)%nat with (len (nest d)) by (rewrite nest_len; lia).
      rewrite firstn_all. reflexivity. }
    rewrite HS, Hg. rewrite IH by lia. unfold andthen, after, pure, plus. cbn [fst snd n_unm n_len none].
    f_equal. f_equal; unfold none; cbn [n_unm n_len]; lia. }
  rewrite HP. unfold andthen at 1. cbn [fst snd]. rewrite andthen_pure.
  assert (HF : slice_from (nest (S d)) (mlen2 g (IE2 93 (N.of_nat (4 * d)) 0 (nest d) (nest_ie d))) = Ok []).
  { rewrite (proj1 (wf_mlen g _ H1)). cbn [i2_payload].
    unfold slice_from. rewrite !nest_len.
    replace (4 + 4 * d <=? 4 * S d)%nat with true by (symmetry; apply Nat.leb_le; lia).
    rewrite skipn_all2 by (rewrite nest_len; lia). reflexivity. }
  rewrite HF. cbn [multi2_w]. unfold andthen, after, pure. cbn [fst snd plus none n_unm n_len].
  rewrite len_calls_count by exact H1.
  cbn [ie_count]. rewrite nest_count. rewrite seq_S, list_sum_app. cbn [list_sum fold_right nest_ie].
  unfold plus, none. cbn [n_unm n_len]. f_equal. f_equal; lia.
Qed.
End Nest.
Lemma sum_seq d : (2 * list_sum (seq 1 d) = d * (d + 1))%nat.
Proof. induction d as [|d IH]; [reflexivity|]. rewrite seq_S, list_sum_app. cbn [list_sum fold_right]. lia. Qed.

(** ** The fields of a message hold no more than was parsed *)
Lemma sum_cons x l : list_sum (x :: l) = (x + list_sum l)%nat. Proof. reflexivity. Qed.
Section Held.
Context {I H : Type} (io : ieops I) (ho : hdops H) (w : I -> nat).
Definition wo (o : option I) : nat := match o with Some i => w i | None => 0%nat end.
Definition fw (m : @fmap I) : nat := list_sum (map (fun f => list_sum (map wo (snd f))) m).
Lemma fset_w m f v : (fw (fset m f v) + list_sum (map wo (fget m f)) <= fw m + list_sum (map wo v))%nat.
Proof.
  induction m as [|[k x] m IH]; [cbn; lia|]. cbn [fset fget]. destruct (String.eqb k f).
  - unfold fw. cbn [map snd]. rewrite ?sum_cons. lia.
  - unfold fw in *. cbn [map snd] in *. rewrite !sum_cons in *. lia.
Qed.
Lemma run_act_w a i : forall m, (fw (run_act io a i m) <= fw m + w i)%nat.
Proof.
  induction a as [f|f|cs d IHcs IHd|f y n IHy IHn|] using MsgProofs.act_ind'; intros m.
  - cbn [run_act]. pose proof (fset_w m f [Some i]). cbn [map wo] in *. rewrite ?sum_cons in *. change (list_sum []) with 0%nat in *. lia.
  - cbn [run_act]. pose proof (fset_w m f (fget m f ++ [Some i])) as E.
    rewrite map_app, list_sum_app in E. cbn [map wo] in *. rewrite ?sum_cons in *. change (list_sum []) with 0%nat in *. lia.
  - cbn [run_act]. induction IHcs as [|[x a] cs Ha Hcs IH2]; [apply IHd|].
    destruct (x =? io_inst io i); [apply Ha|exact IH2].
  - cbn [run_act]. destruct (fget m f); [apply IHy|apply IHn].
  - cbn [run_act]. lia.
Qed.
Lemma run_table_w t ies : forall m m', run_table io t ies m = Ok m' -> (fw m' <= fw m + list_sum (map wo ies))%nat.
Proof.
  induction ies as [|[i|] ies IH]; intros m m' E.
  - injection E as <-. cbn. lia.
  - cbn [run_table] in E. apply IH in E. pose proof (run_act_w (assoc_act (t_cases t) (t_default t) (io_type io i)) i m).
    cbn [map wo]. rewrite ?sum_cons. lia.
  - cbn [run_table] in E. destruct (t_nilskip t); [|discriminate]. apply IH in E.
    cbn [map wo]. rewrite ?sum_cons. exact E.
Qed.
Lemma run_table_total t ies : forall m, exists m', run_table io t (map Some ies) m = Ok m'.
Proof. induction ies as [|i ies IH]; intros m; [eexists; reflexivity|]. cbn [map run_table]. apply IH. Qed.
Lemma fempty_w d : fw (fempty d) = 0%nat.
Proof. unfold fempty, fw. induction (md_fields d) as [|x l IH]; [reflexivity|]. cbn. exact IH. Qed.
Lemma parse_w d b m : msg_parse io ho d b = Ok m -> exists h, ho_parse ho b = Ok h /\ m_hdr m = h /\
  (held w m = 0%nat \/ exists ies, io_multi io (ho_payload ho h) = Ok ies /\ (held w m <= list_sum (map w ies))%nat).
Proof.
  unfold msg_parse. intros E. destruct (ho_parse ho b) as [h|e|]; cbn [bind] in E; [|discriminate..].
  exists h. split; [reflexivity|].
  destruct (_ <? _)%nat; [injection E as <-; split; [reflexivity|]; left; apply fempty_w|].
  destruct (io_multi io (ho_payload ho h)) as [ies|e|] eqn:EM; [| |discriminate].
  - destruct (run_table io (md_unm d) (map Some ies) (fempty d)) as [fs|e|] eqn:ER; cbn [bind] in E; [|discriminate..].
    injection E as <-. split; [reflexivity|]. right. exists ies. split; [reflexivity|].
    apply run_table_w in ER. rewrite fempty_w in ER. rewrite map_map in ER. cbn [wo] in ER. exact ER.
  - destruct e; try discriminate. destruct (md_soft d); [|discriminate]. injection E as <-.
    split; [reflexivity|]. left; apply fempty_w.
Qed.
End Held.
