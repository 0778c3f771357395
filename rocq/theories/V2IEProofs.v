From Verif Require Import Base BaseLemmas Utils UtilsProofs V2IE V2IESpec.

(** Induction principle with access to the children *)
Lemma ie2_ind' (P : ie2 -> Prop) :
  (forall t l n p c, Forall P c -> P (IE2 t l n p c)) -> forall i, P i.
Proof.
  intros H. fix IH 1. intros [t l n p c]. apply H.
  induction c as [|x r IHc]; constructor; [apply IH|exact IHc].
Qed.

Lemma len_flat_map {A} (f : A -> bytes) l : len (flat_map f l) = list_sum (map (fun x => len (f x)) l).
Proof. induction l; [reflexivity|]. cbn [flat_map map list_sum fold_right]. rewrite app_length, IHl. reflexivity. Qed.

Section P.
Context (g : N -> bool).
Notation mlen := (mlen2 g).
Notation mto := (mto2 g).
Notation wire := (wire2 g).
Notation wf := (wf2 g).

Lemma len_wire i : len (wire i) = mlen i.
Proof.
  induction i as [t l n p c IH] using ie2_ind'. cbn [wire2 mlen2].
  rewrite !app_length. cbn [List.length enc16]. destruct (g t).
  - rewrite len_flat_map. rewrite (map_ext_in _ mlen); [reflexivity|].
    intros x Hx. rewrite Forall_forall in IH. apply IH, Hx.
  - lia.
Qed.

Definition mto_loop := fix loop (cs : list ie2) (off : nat) (b : bytes) : res bytes :=
  match cs with
  | [] => Ok b
  | x :: r =>
      if (len b <? off + mlen x)%nat then Ok b
      else do b <- on_slice b off (off + mlen x) (mto x); loop r (off + mlen x)%nat b
  end.

Lemma mto_unfold t l n p c b : mto (IE2 t l n p c) b =
  if (len b <? 4)%nat then Err EUnexpectedEOF else
  do b <- set_idx b 0 t; do b <- on_slice b 1 3 (put16 l); do b <- set_idx b 3 n;
  if g t then mto_loop c 4%nat b
  else if (len b <? mlen (IE2 t l n p c))%nat then Err EUnexpectedEOF
  else copy_at b 4 (mlen (IE2 t l n p c)) p.
Proof. reflexivity. Qed.

Lemma mto_loop_writes c : Forall (fun x => writes (mto x) (wire x)) c ->
  forall done b, (len done + len (flat_map wire c) <= len b)%nat ->
  mto_loop c (len done) (done ++ skipn (len done) b)
  = Ok ((done ++ flat_map wire c) ++ skipn (len (done ++ flat_map wire c)) b).
Proof.
  induction 1 as [|x r Hx Hr IH]; intros done b Hl; cbn [mto_loop flat_map].
  - rewrite app_nil_r. reflexivity.
  - cbn [flat_map] in Hl. rewrite app_length in Hl.
    rewrite (proj2 (Nat.ltb_ge _ _)).
    2:{ rewrite app_length, skipn_length, <- len_wire. lia. }
    rewrite (on_slice_writes _ (wire x)); [|assumption|rewrite len_wire; lia|rewrite <- len_wire; lia].
    cbn [bind]. replace (len done + mlen x)%nat with (len (done ++ wire x)) by (rewrite app_length, len_wire; lia).
    fold mto_loop. rewrite IH by (rewrite app_length; lia). rewrite <- (app_assoc done (wire x)). reflexivity.
Qed.

(** The first four bytes *)
Lemma head4_writes t l n b : (4 <= len b)%nat ->
  (do b <- set_idx b 0 t; do b <- on_slice b 1 3 (put16 l); set_idx b 3 n)
  = Ok (([t] ++ enc16 l ++ [n]) ++ skipn 4 b).
Proof.
  intros H.
  assert (E1 : set_idx b 0 t = Ok ([t] ++ skipn 1 b))
    by (apply (set_idx_writes t [] b); cbn; lia).
  rewrite E1. cbn [bind].
  assert (E2 : on_slice ([t] ++ skipn 1 b) 1 3 (put16 l) = Ok (([t] ++ enc16 l) ++ skipn 3 b))
    by (apply (on_slice_writes (put16 l) (enc16 l) [t] b 3 (put16_writes l)); cbn; lia).
  rewrite E2. cbn [bind].
  apply (set_idx_writes n ([t] ++ enc16 l) b). cbn; lia.
Qed.

Lemma mto_writes i : writes (mto i) (wire i).
Proof.
  induction i as [t l n p c IH] using ie2_ind'. intros b Hb.
  rewrite mto_unfold. cbn [wire2] in *.
  set (hd := [t] ++ enc16 l ++ [n]).
  assert (Hh : len hd = 4%nat) by reflexivity.
  assert (Heq : [t] ++ enc16 l ++ [n] ++ (if g t then flat_map wire c else p)
                = hd ++ (if g t then flat_map wire c else p))
    by (unfold hd; rewrite <- !app_assoc; reflexivity).
  rewrite Heq in *. rewrite app_length, Hh in Hb.
  rewrite (proj2 (Nat.ltb_ge _ _)) by lia.
  pose proof (head4_writes t l n b ltac:(lia)) as E. fold hd in E.
  transitivity (do b <- (do b <- set_idx b 0 t; do b <- on_slice b 1 3 (put16 l); set_idx b 3 n);
     if g t then mto_loop c 4%nat b
     else if (len b <? mlen (IE2 t l n p c))%nat then Err EUnexpectedEOF
     else copy_at b 4 (mlen (IE2 t l n p c)) p).
  { rewrite !bind_assoc. destruct (set_idx b 0 t); [|reflexivity|reflexivity]. cbn [bind].
    rewrite !bind_assoc. reflexivity. }
  rewrite E. cbn [bind]. rewrite <- Hh.
  destruct (g t) eqn:Eg.
  - rewrite mto_loop_writes; [reflexivity|assumption|lia].
  - cbn [mlen2]. rewrite Eg. rewrite (proj2 (Nat.ltb_ge _ _)) by (rewrite app_length, skipn_length; lia).
    apply on_slice_writes; [apply go_copy_writes|lia|lia].
Qed.

Lemma marshal2_ok i : marshal2 g i = Ok (wire i).
Proof. unfold marshal2. rewrite <- len_wire. apply writes_zeros, mto_writes. Qed.

(** ** Parsing what was marshalled *)
Lemma mlen_ge4 i : (4 <= mlen i)%nat.
Proof. destruct i as [t l n p c]. cbn [mlen2]. destruct (g t); lia. Qed.

Lemma wf_inv t l n p c : wf (IE2 t l n p c) ->
  t < 256 /\ n < 256 /\ l < 65536 /\ N.to_nat l = len p /\
  ((g t = false /\ bytes_ok p /\ c = []) \/ (g t = true /\ p = flat_map wire c /\ Forall wf c)).
Proof. intros H; inv H; intuition auto. Qed.

Lemma wf_mlen i : wf i -> mlen i = (4 + len (i2_payload i))%nat /\ wire i = wire i.
Proof.
  intros H; split; [|reflexivity]. inv H; cbn [mlen2 i2_payload].
  - rewrite H0. reflexivity.
  - rewrite H0. rewrite len_flat_map. do 2 f_equal. apply map_ext. intros; symmetry; apply len_wire.
Qed.

Lemma wf_wire i : wf i -> wire i = [i2_type i] ++ enc16 (i2_length i) ++ [i2_inst i] ++ i2_payload i.
Proof. intros H; inv H; cbn [wire2]; rewrite H0; reflexivity. Qed.

Lemma wf_bytes_ok i : wf i -> bytes_ok (wire i).
Proof.
  induction i as [t l n p c IH] using ie2_ind'. intros H.
  rewrite wf_wire by assumption. cbn [i2_type i2_length i2_inst i2_payload].
  assert (bytes_ok p).
  { apply wf_inv in H. destruct H as (_&_&_&_&[(_&H&_)|(_&->&H)]); [exact H|].
    induction H as [|x r Hx Hr IHr]; [constructor|]. inv IH. cbn [flat_map].
    apply bytes_ok_app; auto. }
  apply wf_inv in H. destruct H as (Ht&Hn&Hl&_).
  repeat apply bytes_ok_app; auto using enc16_ok; repeat constructor; assumption.
Qed.

Lemma parse2_f_head t l n p q fuel :
  l < 65536 -> N.to_nat l = len p ->
  parse2_f g (S fuel) (([t] ++ enc16 l ++ [n] ++ p) ++ q) =
  if g t then do cs <- multi2_f g fuel p; Ok (IE2 t l n p cs) else Ok (IE2 t l n p []).
Proof.
  intros Hl Hp. set (b := ([t] ++ enc16 l ++ [n] ++ p) ++ q).
  assert (Hb : len b = (4 + len p + len q)%nat)
    by (unfold b; rewrite !app_length; cbn [List.length enc16]; lia).
  cbn [parse2_f]. rewrite (proj2 (Nat.ltb_ge _ _)) by lia.
  replace (idx b 0) with (@Ok N t) by reflexivity. cbn [bind].
  replace (slice b 1 3) with (@Ok bytes (enc16 l)).
  2:{ symmetry. unfold b. rewrite <- !app_assoc. apply slice_mid; reflexivity. }
  cbn [bind]. rewrite be16_enc' by assumption. cbn [bind].
  rewrite (proj2 (Z.ltb_ge _ _)) by lia.
  replace (idx b 3) with (@Ok N n) by reflexivity. cbn [bind].
  replace (slice b 4 (4 + N.to_nat l)) with (@Ok bytes p).
  2:{ symmetry. unfold b. rewrite <- !app_assoc.
      change ([t] ++ enc16 l ++ [n] ++ p ++ q) with (([t] ++ enc16 l ++ [n]) ++ p ++ q).
      apply slice_mid; [reflexivity|]. cbn. lia. }
  reflexivity.
Qed.

Lemma multi_nil fuel : multi2_f g (S fuel) [] = Ok []. Proof. reflexivity. Qed.
Lemma multi_unfold fuel b : b <> [] -> multi2_f g (S fuel) b =
  do i <- parse2_f g fuel b; do b' <- slice_from b (mlen i); do r <- multi2_f g fuel b'; Ok (i :: r).
Proof. destruct b; [contradiction|reflexivity]. Qed.

Lemma wire_nonempty i q : wire i ++ q <> [].
Proof. destruct i as [t l n p c]. cbn [wire2]. discriminate. Qed.

(** For every fuel above the input size the parser returns the IEs. *)
Lemma parse_wire : forall i, wf i -> forall fuel q, (mlen i < fuel)%nat -> parse2_f g fuel (wire i ++ q) = Ok i.
Proof.
  induction i as [t l n p c IH] using ie2_ind'. intros Hwf fuel q Hf.
  destruct (wf_mlen _ Hwf) as [Hm _]. cbn [i2_payload] in Hm. rewrite Hm in Hf.
  rewrite wf_wire by assumption. cbn [i2_type i2_length i2_inst i2_payload].
  destruct fuel as [|fuel]; [lia|].
  apply wf_inv in Hwf. destruct Hwf as (_&_&Hl&Hlp&[(Hg&_&->)|(Hg&->&Hc)]).
  - rewrite parse2_f_head by assumption. rewrite Hg. reflexivity.
  - rewrite parse2_f_head by assumption. rewrite Hg.
    assert (Hmul : forall fuel, (len (flat_map wire c) + 2 <= fuel)%nat ->
              multi2_f g fuel (flat_map wire c) = Ok c).
    { clear - IH Hc. induction Hc as [|x r Hx Hr IHr]; intros fuel Hfu.
      - destruct fuel; [lia|reflexivity].
      - inv IH. cbn [flat_map] in *. rewrite app_length, len_wire in Hfu.
        pose proof (mlen_ge4 x).
        destruct fuel as [|fuel]; [lia|]. rewrite multi_unfold by apply wire_nonempty.
        rewrite H1 by (auto; lia). cbn [bind].
        rewrite slice_from_app by (symmetry; apply len_wire). cbn [bind].
        rewrite IHr by (auto; lia). reflexivity. }
    rewrite Hmul by lia. reflexivity.
Qed.

Lemma multi_wire c : Forall wf c -> forall fuel, (len (flat_map wire c) + 2 <= fuel)%nat ->
  multi2_f g fuel (flat_map wire c) = Ok c.
Proof.
  induction 1 as [|x r Hx Hr IHr]; intros fuel Hfu.
  - destruct fuel; [lia|reflexivity].
  - cbn [flat_map] in *. rewrite app_length, len_wire in Hfu.
    pose proof (mlen_ge4 x).
    destruct fuel as [|fuel]; [lia|]. rewrite multi_unfold by apply wire_nonempty.
    rewrite parse_wire by (auto; lia). cbn [bind].
    rewrite slice_from_app by (symmetry; apply len_wire). cbn [bind].
    rewrite IHr by lia. reflexivity.
Qed.

Theorem parse2_wire i q : wf i -> parse2 g (wire i ++ q) = Ok i.
Proof. intros H. apply parse_wire; [assumption|]. rewrite app_length, len_wire. lia. Qed.
Theorem multi2_wire c : Forall wf c -> multi2 g (flat_map wire c) = Ok c.
Proof. intros H. apply multi_wire; [assumption|]. lia. Qed.

(** ** Parsing arbitrary bytes *)
Lemma parse_inv_aux : forall fuel,
  (forall b i, bytes_ok b -> parse2_f g fuel b = Ok i ->
     wf i /\ exists q, b = wire i ++ q) /\
  (forall b c, bytes_ok b -> multi2_f g fuel b = Ok c -> Forall wf c /\ b = flat_map wire c).
Proof.
  induction fuel as [|fuel [IHp IHm]]; [split; discriminate|]. split.
  - intros b i Hb H. cbn [parse2_f] in H.
    destruct (len b <? 4)%nat eqn:E4; [discriminate|]. apply Nat.ltb_ge in E4.
    apply bind_ok_inv in H. destruct H as (t & Ht & H).
    apply bind_ok_inv in H. destruct H as (s & Hs & H).
    apply bind_ok_inv in H. destruct H as (l & Hl & H).
    destruct (_ <? _)%Z eqn:EL; [discriminate|]. apply Z.ltb_ge in EL.
    apply bind_ok_inv in H. destruct H as (n & Hn & H).
    apply bind_ok_inv in H. destruct H as (p & Hp & H).
    destruct b as [|b0 [|b1 [|b2 [|b3 r]]]]; cbn [List.length] in E4; try lia.
    cbn in Ht, Hn. injection Ht as ->. injection Hn as ->.
    cbn in Hs. injection Hs as <-. cbn in Hl. injection Hl as <-.
    inv Hb. inv H3. inv H5. inv H6.
    assert (El : b1 * 256 + b2 < 65536) by (unfold is_byte in *; lia).
    pose proof (slice_bytes_ok _ _ _ _ (bytes_ok_cons _ _ H2 (bytes_ok_cons _ _ H3 (bytes_ok_cons _ _ H4 (bytes_ok_cons _ _ H5 H7)))) Hp) as Hpok.
    apply slice_inv in Hp. destruct Hp as (_ & Hp2 & Hp3 & Hp4).
    change (skipn 4 (t :: b1 :: b2 :: n :: r)) with r in Hp3.
    replace (4 + N.to_nat (b1 * 256 + b2) - 4)%nat with (N.to_nat (b1 * 256 + b2)) in Hp3, Hp4 by lia.
    assert (Hw : forall c, wf (IE2 t (b1*256+b2) n p c) ->
              exists q, t :: b1 :: b2 :: n :: r = wire (IE2 t (b1*256+b2) n p c) ++ q).
    { intros c Hc. exists (skipn (len p) r). rewrite wf_wire by assumption.
      cbn [i2_type i2_length i2_inst i2_payload]. rewrite enc16_be by assumption.
      cbn [app]. do 4 f_equal. rewrite Hp3 at 1. rewrite Hp4. symmetry. apply firstn_skipn. }
    destruct (g t) eqn:Eg.
    + apply bind_ok_inv in H. destruct H as (cs & Hcs & H). injection H as <-.
      destruct (IHm _ _ Hpok Hcs) as [Hf Heq].
      assert (Hwf : wf (IE2 t (b1*256+b2) n p cs)) by (apply wf2_grouped; auto; lia).
      split; [exact Hwf|apply Hw, Hwf].
    + injection H as <-.
      assert (Hwf : wf (IE2 t (b1*256+b2) n p [])) by (apply wf2_plain; auto; lia).
      split; [exact Hwf|apply Hw, Hwf].
  - intros b c Hb H. destruct b as [|x r].
    + injection H as <-. split; [constructor|reflexivity].
    + rewrite multi_unfold in H by discriminate.
      apply bind_ok_inv in H. destruct H as (i & Hi & H).
      apply bind_ok_inv in H. destruct H as (b' & Hb' & H).
      apply bind_ok_inv in H. destruct H as (cs & Hcs & H). injection H as <-.
      destruct (IHp _ _ Hb Hi) as [Hwf (q & Hq)].
      pose proof (slice_from_bytes_ok _ _ _ Hb Hb') as Hok.
      apply slice_from_inv in Hb'. destruct Hb' as (_ & E & _).
      rewrite Hq, skipn_app_exact in E by (symmetry; apply len_wire). subst b'.
      destruct (IHm _ _ Hok Hcs) as [Hf Heq].
      split; [constructor; assumption|]. rewrite Hq, Heq. reflexivity.
Qed.

Theorem parse2_inv b i : bytes_ok b -> parse2 g b = Ok i -> wf i /\ exists q, b = wire i ++ q.
Proof. intros Hb H. exact (proj1 (parse_inv_aux _) b i Hb H). Qed.
Theorem multi2_inv b c : bytes_ok b -> multi2 g b = Ok c -> Forall wf c /\ b = flat_map wire c.
Proof. intros Hb H. exact (proj2 (parse_inv_aux _) b c Hb H). Qed.

(** ** Totality *)
Lemma parse_safe_aux : forall fuel,
  (forall b, bytes_ok b -> (len b + 1 <= fuel)%nat -> safe (parse2_f g fuel b)) /\
  (forall b, bytes_ok b -> (len b + 2 <= fuel)%nat -> safe (multi2_f g fuel b)).
Proof.
  induction fuel as [|fuel [IHp IHm]]; [split; intros; lia|]. split.
  - intros b Hb Hf. cbn [parse2_f].
    destruct (len b <? 4)%nat eqn:E4; [apply safe_err|]. apply Nat.ltb_ge in E4.
    apply safe_bind; [safe_tac|]. intros t Ht.
    apply safe_bind; [safe_tac|]. intros s Hs.
    apply safe_bind; [safe_tac|]. intros l Hl.
    destruct (_ <? _)%Z eqn:EL; [apply safe_err|]. apply Z.ltb_ge in EL.
    apply safe_bind; [safe_tac|]. intros n Hn.
    apply safe_bind; [safe_tac|]. intros p Hp.
    destruct (g t); [|apply safe_ok].
    apply safe_bind; [|intros; apply safe_ok].
    apply IHm; [eapply slice_bytes_ok; eauto|]. slice_facts. lia.
  - intros b Hb Hf. destruct b as [|x r]; [apply safe_ok|].
    rewrite multi_unfold by discriminate.
    apply safe_bind; [apply IHp; [assumption|lia]|]. intros i Hi.
    destruct (proj1 (parse_inv_aux _) _ _ Hb Hi) as [Hwf (q & Hq)].
    pose proof (mlen_ge4 i) as H4.
    assert (Hl : (mlen i <= len (x :: r))%nat) by (rewrite Hq, app_length, len_wire; lia).
    apply safe_bind; [safe_tac|]. intros b' Hb'.
    apply safe_bind; [|intros; apply safe_ok].
    apply IHm; [eapply slice_from_bytes_ok; eauto|]. slice_facts. lia.
Qed.
Theorem parse2_safe b : bytes_ok b -> safe (parse2 g b).
Proof. intros H. apply (proj1 (parse_safe_aux _)); [assumption|lia]. Qed.
Theorem multi2_safe b : bytes_ok b -> safe (multi2 g b).
Proof. intros H. apply (proj2 (parse_safe_aux _)); [assumption|lia]. Qed.

(** ** Constructors *)
Lemma land15 x : N.land x 15 < 16.
Proof. change 15 with (N.ones 4). rewrite N.land_ones. apply N.mod_lt. discriminate. Qed.

Lemma new2_wf t ins data : g t = false -> t < 256 -> bytes_ok data -> (len data < N.to_nat 65536)%nat ->
  wf (new2 g t ins data).
Proof.
  intros. unfold new2, set_length2. cbv zeta. pose proof (land15 ins).
  apply wf2_plain; auto; unfold u16; lia.
Qed.

Definition somes {A} (l : list (option A)) : list A :=
  flat_map (fun o => match o with Some x => [x] | None => [] end) l.

Lemma new_grouped_loop_ok ies p c :
  new_grouped_loop g ies p c = Ok (Some (p ++ flat_map wire (somes ies), c ++ somes ies)).
Proof.
  revert p c; induction ies as [|[x|] r IH]; intros p c; cbn [new_grouped_loop somes flat_map app].
  - rewrite !app_nil_r. reflexivity.
  - rewrite marshal2_ok, IH. change (flat_map _ r) with (somes r). rewrite <- !app_assoc. reflexivity.
  - apply IH.
Qed.
Lemma add_loop_ok ies p c :
  add_loop g ies p c = Ok (p ++ flat_map wire (somes ies), c ++ somes ies).
Proof.
  revert p c; induction ies as [|[x|] r IH]; intros p c; cbn [add_loop somes flat_map app].
  - rewrite !app_nil_r. reflexivity.
  - rewrite marshal2_ok, IH. change (flat_map _ r) with (somes r). rewrite <- !app_assoc. reflexivity.
  - apply IH.
Qed.

Lemma new_grouped_ok t ies :
  new_grouped g t ies =
  Ok (Some (IE2 t (u16 (N.of_nat (len (flat_map wire (somes ies))))) 0 (flat_map wire (somes ies)) (somes ies))).
Proof. unfold new_grouped. rewrite new_grouped_loop_ok. reflexivity. Qed.

Lemma no_nils_some {A} (l : list A) : no_nils (map Some l) = Some l.
Proof. induction l; [reflexivity|]. cbn. rewrite IHl. reflexivity. Qed.

Definition keep (typ ins : N) (x : ie2) : bool := negb ((i2_type x =? typ) && (i2_instance x =? ins)).

Lemma remove_loop_ok typ ins cs : forall kept p,
  remove_loop g typ ins cs (map Some kept ++ repeat None (List.length cs)) (List.length kept) p
  = Ok (map Some (kept ++ filter (keep typ ins) cs), p ++ flat_map wire (filter (keep typ ins) cs)).
Proof.
  induction cs as [|x r IH]; intros kept p; cbn [remove_loop filter List.length repeat].
  - rewrite !app_nil_r. reflexivity.
  - destruct ((i2_type x =? typ) && (i2_instance x =? ins)) eqn:E.
    all: assert (Hk : keep typ ins x = negb ((i2_type x =? typ) && (i2_instance x =? ins))) by reflexivity;
      rewrite E in Hk; cbn [negb] in Hk; rewrite Hk.
    + set (L := map Some kept ++ None :: repeat None (List.length r)).
      assert (HL : L = (map Some kept ++ repeat None (List.length r)) ++ [None]).
      { unfold L. rewrite <- app_assoc. f_equal. change [None] with (repeat (@None ie2) 1).
        rewrite <- repeat_app, Nat.add_1_r. reflexivity. }
      rewrite slice_ok by lia. cbn [skipn bind]. rewrite Nat.sub_0_r.
      replace (firstn (List.length L - 1) L) with (map Some kept ++ repeat (@None ie2) (List.length r)).
      2:{ rewrite HL at 2. rewrite firstn_app_exact; [reflexivity|]. rewrite HL, app_length. cbn. lia. }
      apply IH.
    + rewrite (proj2 (Nat.ltb_lt _ _)) by (rewrite app_length, map_length; cbn; lia).
      rewrite marshal2_ok.
      replace (firstn (List.length kept) (map Some kept ++ None :: repeat None (List.length r)))
        with (map Some kept) by (rewrite firstn_app_exact; [reflexivity|rewrite map_length; reflexivity]).
      replace (skipn (S (List.length kept)) (map Some kept ++ None :: repeat None (List.length r)))
        with (repeat (@None ie2) (List.length r)).
      2:{ change (map Some kept ++ None :: repeat None (List.length r))
            with (map Some kept ++ [None] ++ repeat None (List.length r)).
          rewrite app_assoc, skipn_app_exact; [reflexivity|]. rewrite app_length, map_length. cbn. lia. }
      specialize (IH (kept ++ [x]) (p ++ wire x)).
      rewrite app_length, map_app, <- !app_assoc, Nat.add_1_r in IH. cbn [map app List.length] in IH.
      rewrite IH. cbn [flat_map]. rewrite <- ?app_assoc. reflexivity.
Qed.

Lemma remove2_ok t l n p c typ ins : g t = true ->
  remove2 g (IE2 t l n p c) typ ins =
  Ok (let c' := filter (keep typ ins) c in
      IE2 t (u16 (N.of_nat (len (flat_map wire c')))) n (flat_map wire c') c').
Proof.
  intros Hg. cbn [remove2]. rewrite Hg. cbn [negb].
  pose proof (remove_loop_ok typ ins c [] []) as H. cbn [map app List.length] in H. rewrite H.
  cbn [bind fst snd]. rewrite no_nils_some. reflexivity.
Qed.
Lemma add2_ok t l n p c ies : g t = true ->
  add2 g (IE2 t l n p c) ies =
  Ok (IE2 t (u16 (N.of_nat (len (p ++ flat_map wire (somes ies))))) n
          (p ++ flat_map wire (somes ies)) (c ++ somes ies)).
Proof. intros Hg. cbn [add2]. rewrite Hg. cbn [negb]. rewrite add_loop_ok. reflexivity. Qed.

End P.
