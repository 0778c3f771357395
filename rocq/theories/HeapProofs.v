(** Proofs about V2Heap.v. *)
From Coq Require Import ZArith.
From Verif Require Import Base BaseLemmas Utils V2IE V2IESpec V2IEProofs V2Heap HeapSpec.

Lemma iem_ind' (P : iem -> Prop) : (forall t l n p c, Forall P c -> P (IEM t l n p c)) -> forall i, P i.
Proof.
  intros H. fix IH 1. intros [t l n p c]. apply H. induction c as [|x r IHc]; constructor; [apply IH|exact IHc].
Qed.
Definition good (h : heap) (s : slc) : Prop := (s_arr s < List.length h)%nat /\ (s_off s + s_len s <= len (arr h (s_arr s)))%nat.

(** ** Reading *)
Lemma read_len h s : good h s -> len (read h s) = s_len s.
Proof. intros [_ H]. unfold read. rewrite firstn_length, skipn_length. lia. Qed.
Lemma good_sub h s lo hi : good h s -> (lo <= hi <= s_len s)%nat -> good h (sub s lo hi).
Proof. intros [A B] H. split; cbn [sub s_arr s_off s_len]; [exact A|lia]. Qed.
Lemma read_sub h s lo hi : good h s -> (lo <= hi <= s_len s)%nat -> read h (sub s lo hi) = firstn (hi - lo) (skipn lo (read h s)).
Proof.
  intros [_ G] H. unfold read, sub. cbn [s_arr s_off s_len]. rewrite skipn_firstn_comm, skipn_skipn', firstn_firstn. f_equal; lia.
Qed.
(** ** Parsing *)
Section P.
Context (g : N -> bool).
Lemma parse2_eq f b : parse2_f g (S f) b =
  if (len b <? 4)%nat then Err EUnexpectedEOF else
  do t <- idx b 0; do s <- slice b 1 3; do l <- be16 s;
  if (Z.of_nat (len b) - 4 <? Z.of_N l)%Z then Err EInvalidLength else
  do n <- idx b 3; do p <- slice b 4 (4 + N.to_nat l);
  if g t then do cs <- multi2_f g f p; Ok (IE2 t l n p cs) else Ok (IE2 t l n p []).
Proof. reflexivity. Qed.
Lemma multi2_eq f b : multi2_f g (S f) b =
  match b with [] => Ok [] | _ => do i <- parse2_f g f b; do b' <- slice_from b (mlen2 g i); do r <- multi2_f g f b'; Ok (i :: r) end.
Proof. reflexivity. Qed.
Lemma parse_eq f h s : parse_m g (S f) h s =
  let b := read h s in
  if (len b <? 4)%nat then Err EUnexpectedEOF else
  do t <- idx b 0; do w <- slice b 1 3; do l <- be16 w;
  if (Z.of_nat (len b) - 4 <? Z.of_N l)%Z then Err EInvalidLength else
  do n <- idx b 3;
  let p := sub s 4 (4 + N.to_nat l) in
  if g t then do cs <- multi_m g f h p; Ok (IEM t l n p cs) else Ok (IEM t l n p []).
Proof. reflexivity. Qed.
Lemma multi_eq f h s : multi_m g (S f) h s =
  if (s_len s =? 0)%nat then Ok [] else
  do i <- parse_m g f h s;
  let k := mlen2 g (view h i) in
  if (s_len s <? k)%nat then Panic else do r <- multi_m g f h (sub s k (s_len s)); Ok (i :: r).
Proof. reflexivity. Qed.
Lemma refines fuel : forall h s, good h s ->
  (do m <- parse_m g fuel h s; Ok (view h m)) = parse2_f g fuel (read h s) /\
  (do m <- multi_m g fuel h s; Ok (map (view h) m)) = multi2_f g fuel (read h s).
Proof.
  induction fuel as [|fuel IH]; intros h s G; [split; reflexivity|]. split.
  - rewrite parse2_eq, parse_eq. cbv zeta. pose proof (read_len h s G) as L. destruct (len (read h s) <? 4)%nat eqn:E; [reflexivity|].
    destruct (idx (read h s) 0) as [t| |]; [|reflexivity|reflexivity]. cbn [bind].
    destruct (slice (read h s) 1 3) as [w| |]; [|reflexivity|reflexivity]. cbn [bind].
    destruct (be16 w) as [l| |]; [|reflexivity|reflexivity]. cbn [bind].
    destruct (Z.of_nat (len (read h s)) - 4 <? Z.of_N l)%Z eqn:El; [reflexivity|].
    destruct (idx (read h s) 3) as [n| |]; [|reflexivity|reflexivity]. cbn [bind].
    assert (B : (4 <= 4 + N.to_nat l <= s_len s)%nat) by lia.
    rewrite slice_ok by lia. cbn [bind]. pose proof (read_sub h s 4 (4 + N.to_nat l) G B) as R. rewrite <- R.
    destruct (g t); [|reflexivity].
    destruct (IH h (sub s 4 (4 + N.to_nat l)) (good_sub h s _ _ G B)) as [_ <-].
    destruct (multi_m g fuel h (sub s 4 (4 + N.to_nat l))) as [cs| |]; reflexivity.
  - rewrite multi2_eq, multi_eq. pose proof (read_len h s G) as L. destruct (s_len s =? 0)%nat eqn:E.
    { destruct (read h s); [reflexivity|cbn in L; lia]. }
    destruct (IH h s G) as [<- _]. destruct (read h s) as [|x r] eqn:Er; [cbn in L; lia|]. rewrite <- Er in *. clear Er.
    destruct (parse_m g fuel h s) as [i| |]; [|reflexivity|reflexivity]. cbn [bind]. cbv zeta. set (k := mlen2 g (view h i)).
    destruct (s_len s <? k)%nat eqn:Ek.
    { unfold slice_from, slice. replace (k <=? len (read h s))%nat with false by lia. reflexivity. }
    assert (B : (k <= s_len s <= s_len s)%nat) by lia.
    rewrite slice_from_ok by lia. cbn [bind]. pose proof (read_sub h s k (s_len s) G B) as R.
    rewrite firstn_all2 in R by (rewrite skipn_length; lia). rewrite <- R.
    destruct (IH h (sub s k (s_len s)) (good_sub h s _ _ G B)) as [_ <-].
    destruct (multi_m g fuel h (sub s k (s_len s))) as [cs| |]; reflexivity.
Qed.
(** where the parts of a parsed IE lie *)
Definition within (a lo hi : nat) (i : iem) : Prop :=
  Forall (fun s => s_arr s = a /\ (lo <= s_off s)%nat /\ (s_off s + s_len s <= hi)%nat) (slices i).
Lemma within_mono a lo hi lo' hi' i : (lo' <= lo)%nat -> (hi <= hi')%nat -> within a lo hi i -> within a lo' hi' i.
Proof. intros A B. apply Forall_impl. intros s. lia. Qed.
Lemma placed fuel : forall h s, good h s ->
  (forall i, parse_m g fuel h s = Ok i -> exists l, im_payload i = sub s 4 (4 + l) /\ mlen2 g (view h i) = (4 + l)%nat /\ (4 + l <= s_len s)%nat /\
     within (s_arr s) (s_off s) (s_off s + 4 + l) i) /\
  (forall ms, multi_m g fuel h s = Ok ms -> list_sum (map (fun m => mlen2 g (view h m)) ms) = s_len s /\ Forall (within (s_arr s) (s_off s) (s_off s + s_len s)) ms).
Proof.
  induction fuel as [|fuel IH]; intros h s G; [split; discriminate|]. split.
  - intros i H. rewrite parse_eq in H. cbv zeta in H. pose proof (read_len h s G) as L. destruct (len (read h s) <? 4)%nat eqn:E; [discriminate|].
    destruct (idx (read h s) 0) as [t| |]; [|discriminate|discriminate]. cbn [bind] in H.
    destruct (slice (read h s) 1 3) as [w| |]; [|discriminate|discriminate]. cbn [bind] in H.
    destruct (be16 w) as [l| |]; [|discriminate|discriminate]. cbn [bind] in H.
    destruct (Z.of_nat (len (read h s)) - 4 <? Z.of_N l)%Z eqn:El; [discriminate|].
    destruct (idx (read h s) 3) as [n| |]; [|discriminate|discriminate]. cbn [bind] in H.
    assert (B : (4 <= 4 + N.to_nat l <= s_len s)%nat) by lia. pose proof (good_sub h s _ _ G B) as G'.
    exists (N.to_nat l). destruct (g t) eqn:Eg.
    + destruct (multi_m g fuel h (sub s 4 (4 + N.to_nat l))) as [cs| |] eqn:Em; [|discriminate|discriminate]. cbn [bind] in H. inversion H; subst i. clear H.
      destruct (IH h _ G') as [_ F]. destruct (F cs Em) as [F1 F2]. split; [reflexivity|]. split; [|split; [lia|]].
      * cbn [view mlen2]. rewrite Eg, map_map. rewrite F1. cbn [sub s_len]. lia.
      * unfold within. cbn [slices]. constructor; [cbn [sub s_arr s_off s_len]; lia|]. apply Forall_flat_map.
        eapply Forall_impl; [|exact F2]. intros m. apply within_mono; cbn [sub s_off s_len]; lia.
    + inversion H; subst i. split; [reflexivity|]. split; [|split; [lia|]].
      * cbn [view mlen2]. rewrite Eg. rewrite read_len by exact G'. cbn [sub s_len]. lia.
      * unfold within. cbn [slices flat_map]. constructor; [cbn [sub s_arr s_off s_len]; lia|constructor].
  - intros ms H. rewrite multi_eq in H. destruct (s_len s =? 0)%nat eqn:E. { inversion H; subst ms. split; [cbn; lia|constructor]. }
    destruct (parse_m g fuel h s) as [i| |] eqn:Ei; [|discriminate|discriminate]. cbn [bind] in H. cbv zeta in H.
    destruct (IH h s G) as [P _]. destruct (P i Ei) as (l & Hp & Hm & Hl & Hw). rewrite Hm in H.
    destruct (s_len s <? 4 + l)%nat eqn:Ek; [discriminate|].
    assert (B : (4 + l <= s_len s <= s_len s)%nat) by lia.
    destruct (multi_m g fuel h (sub s (4 + l) (s_len s))) as [r| |] eqn:Er; [|discriminate|discriminate]. cbn [bind] in H. inversion H; subst ms. clear H.
    destruct (IH h _ (good_sub h s _ _ G B)) as [_ F]. destruct (F r Er) as [F1 F2]. split.
    + cbn [map list_sum fold_right]. change (fold_right Nat.add 0 ?x)%nat with (list_sum x). rewrite Hm, F1. cbn [sub s_len]. lia.
    + constructor; [eapply within_mono; [| |exact Hw]; lia|]. eapply Forall_impl; [|exact F2]. intros m. apply within_mono; cbn [sub s_off s_len]; lia.
Qed.
Lemma multi_head fuel h s j r : good h s -> multi_m g fuel h s = Ok (j :: r) -> exists l, im_payload j = sub s 4 (4 + l) /\ (4 + l <= s_len s)%nat.
Proof.
  intros G H. destruct fuel as [|fuel]; [discriminate|]. rewrite multi_eq in H. destruct (s_len s =? 0)%nat; [discriminate|].
  destruct (parse_m g fuel h s) as [z| |] eqn:Ez; try discriminate. cbn [bind] in H. cbv zeta in H.
  destruct (s_len s <? mlen2 g (view h z))%nat; [discriminate|].
  destruct (multi_m g fuel h (sub s (mlen2 g (view h z)) (s_len s))) as [q| |]; try discriminate. cbn [bind] in H. inversion H; subst.
  destruct (placed fuel h s G) as [P _]. destruct (P j Ez) as (l & Hp & _ & Hl & _). eauto.
Qed.
(** the IEs of a list lie one behind the other *)
Lemma multi_split l1 : forall fuel h s i l2, good h s -> multi_m g fuel h s = Ok (l1 ++ i :: l2) ->
  exists o l, s_arr (im_payload i) = s_arr s /\ s_off (im_payload i) = (o + 4)%nat /\ s_len (im_payload i) = l /\ (s_off s <= o)%nat /\ (o + 4 + l <= s_off s + s_len s)%nat /\
    Forall (within (s_arr s) (s_off s) o) l1 /\ within (s_arr s) o (o + 4 + l) i /\ Forall (within (s_arr s) (o + 4 + l) (s_off s + s_len s)) l2 /\
    (forall j l3, l2 = j :: l3 -> s_off (im_payload j) = (o + 4 + l + 4)%nat /\ s_arr (im_payload j) = s_arr s /\ (o + 4 + l + 4 + s_len (im_payload j) <= s_off s + s_len s)%nat).
Proof.
  induction l1 as [|x l1 IH]; intros [|fuel] h s i l2 G H; try discriminate; rewrite multi_eq in H;
    (destruct (s_len s =? 0)%nat eqn:E; [discriminate|]); destruct (parse_m g fuel h s) as [y| |] eqn:Ei; try discriminate; cbn [bind] in H; cbv zeta in H;
    destruct (placed fuel h s G) as [P _]; destruct (P y Ei) as (l & Hp & Hm & Hl & Hw); rewrite Hm in H;
    (destruct (s_len s <? 4 + l)%nat eqn:Ek; [discriminate|]); assert (B : (4 + l <= s_len s <= s_len s)%nat) by lia; pose proof (good_sub h s _ _ G B) as G';
    destruct (multi_m g fuel h (sub s (4 + l) (s_len s))) as [r| |] eqn:Er; try discriminate; cbn [bind] in H; inversion H; subst; clear H.
  - destruct (placed fuel h _ G') as [_ F]. destruct (F l2 Er) as [F1 F2].
    exists (s_off s), l. rewrite Hp. cbn [sub s_arr s_off s_len]. repeat split; try lia; try constructor.
    + eapply within_mono; [| |exact Hw]; lia.
    + eapply Forall_impl; [|exact F2]. intros m. apply within_mono; cbn [sub s_off s_len]; lia.
    + subst l2. destruct (multi_head fuel h _ j l3 G' Er) as (l' & -> & Hl'). cbn [sub s_off]. lia.
    + subst l2. destruct (multi_head fuel h _ j l3 G' Er) as (l' & -> & Hl'). reflexivity.
    + subst l2. destruct (multi_head fuel h _ j l3 G' Er) as (l' & -> & Hl'). cbn [sub s_off s_len] in *. lia.
  - destruct (IH fuel h _ i l2 G' Er) as (o & n & A1 & A2 & A3 & A4 & A5 & A6 & A7 & A8 & A9). cbn [sub s_arr s_off s_len] in *.
    replace (s_off s + (4 + l) + (s_len s - (4 + l)))%nat with (s_off s + s_len s)%nat in * by lia.
    exists o, n. repeat split; auto; try lia; try (edestruct A9 as (? & ? & ?); eauto; fail).
    constructor; [eapply within_mono; [| |exact Hw]; lia|]. eapply Forall_impl; [|exact A6]. intros m. apply within_mono; lia.
Qed.
End P.

Lemma nth_firstn_lt {A} (d : A) l : forall n j, (j < n)%nat -> nth j (firstn n l) d = nth j l d.
Proof. induction l as [|x l IH]; intros [|n] [|j] H; try reflexivity; try lia. cbn. apply IH. lia. Qed.
Lemma nth_skipn' {A} (d : A) l : forall n j, nth j (skipn n l) d = nth (n + j)%nat l d.
Proof. induction l as [|x l IH]; intros [|n] j; try reflexivity; [destruct j; reflexivity|apply IH]. Qed.
(** ** Writing *)
(** [h'] differs from [h] in array [a] between [lo] and [hi] at most, and in arrays that [h] does not have *)
Definition only (h h' : heap) (a lo hi : nat) : Prop :=
  (List.length h <= List.length h')%nat /\
  forall b, (b < List.length h)%nat -> len (arr h' b) = len (arr h b) /\
    forall j, (b <> a \/ j < lo \/ hi <= j)%nat -> nth j (arr h' b) 0 = nth j (arr h b) 0.
Lemma only_refl h a lo hi : only h h a lo hi.
Proof. split; auto. Qed.
Lemma only_trans h0 h h' a lo hi a' lo' hi' : only h0 h a lo hi -> only h h' a' lo' hi' ->
  (a' = a /\ (lo <= lo')%nat /\ (hi' <= hi)%nat) \/ (List.length h0 <= a')%nat -> only h0 h' a lo hi.
Proof.
  intros [L1 O1] [L2 O2] C. split; [lia|]. intros b Hb. destruct (O1 b Hb) as [E1 N1]. destruct (O2 b ltac:(lia)) as [E2 N2]. split; [lia|].
  intros j Hj. rewrite N2 by lia. auto.
Qed.
Lemma nth_ext0 (x y : bytes) : len x = len y -> (forall j, (j < len x)%nat -> nth j x 0 = nth j y 0) -> x = y.
Proof. intros L H. eapply nth_ext; eauto. Qed.
Lemma nth_read h s j : good h s -> (j < s_len s)%nat -> nth j (read h s) 0 = nth (s_off s + j) (arr h (s_arr s)) 0.
Proof. intros _ Hj. unfold read. rewrite nth_firstn_lt by exact Hj. apply nth_skipn'. Qed.
Lemma good_only h h' a lo hi s : only h h' a lo hi -> good h s -> good h' s.
Proof. intros [L O] [A B]. destruct (O _ A) as [E _]. split; lia. Qed.
Lemma read_only h h' a lo hi s : only h h' a lo hi -> good h s -> s_arr s <> a \/ (s_off s + s_len s <= lo)%nat \/ (hi <= s_off s)%nat -> read h' s = read h s.
Proof.
  intros O G C. pose proof (good_only _ _ _ _ _ _ O G) as G'. apply nth_ext0; [rewrite !read_len; auto|].
  rewrite read_len by exact G'. intros j Hj. rewrite !nth_read by assumption. destruct O as [_ O]. destruct (O _ (proj1 G)) as [_ N]. apply N. lia.
Qed.
Lemma inside_only h h' a lo hi i : only h h' a lo hi -> inside h i -> inside h' i.
Proof. intros O. apply Forall_impl. intros s. exact (good_only h h' a lo hi s O). Qed.
Lemma inside_iff h t l n p c : inside h (IEM t l n p c) <-> good h p /\ Forall (inside h) c.
Proof.
  unfold inside at 1. cbn [slices]. rewrite Forall_cons_iff. unfold good. rewrite Forall_flat_map. reflexivity.
Qed.
Lemma apart_iff a lo hi t l n p c : apart a lo hi (IEM t l n p c) <-> (s_arr p <> a \/ (s_off p + s_len p <= lo)%nat \/ (hi <= s_off p)%nat) /\ Forall (apart a lo hi) c.
Proof. unfold apart at 1. cbn [slices]. rewrite Forall_cons_iff, Forall_flat_map. reflexivity. Qed.
Lemma view_only h h' a lo hi i : only h h' a lo hi -> inside h i -> apart a lo hi i -> view h' i = view h i.
Proof.
  intros O. induction i as [t l n p c IH] using iem_ind'. rewrite inside_iff, apart_iff. intros [G I] [A B]. cbn [view].
  rewrite (read_only _ _ _ _ _ _ O G A). f_equal. apply map_ext_Forall. rewrite Forall_forall in *. auto.
Qed.
Lemma views_only h h' a lo hi l : only h h' a lo hi -> Forall (inside h) l -> Forall (apart a lo hi) l -> map (view h') l = map (view h) l.
Proof. intros O I A. apply map_ext_Forall. rewrite Forall_forall in *. intros x Hx. eapply view_only; eauto. Qed.

Lemma arr_upd h a x b : (a < List.length h)%nat -> arr (firstn a h ++ x :: skipn (S a) h) b = if (b =? a)%nat then x else arr h b.
Proof.
  intros Ha. unfold arr. destruct (Nat.eqb_spec b a) as [->|Hb].
  - rewrite app_nth2 by (rewrite firstn_length; lia). rewrite firstn_length. replace (a - Nat.min a (List.length h))%nat with O by lia. reflexivity.
  - destruct (Nat.lt_ge_cases b a).
    + rewrite app_nth1 by (rewrite firstn_length; lia). rewrite nth_firstn_lt by lia. reflexivity.
    + rewrite app_nth2 by (rewrite firstn_length; lia). rewrite firstn_length. replace (b - Nat.min a (List.length h))%nat with (S (b - S a)) by lia.
      cbn [nth]. rewrite nth_skipn'. f_equal. lia.
Qed.
Lemma put_len a e d : (e + len d <= len a)%nat -> len (put a e d) = len a.
Proof. intros H. unfold put. rewrite !app_length, firstn_length, skipn_length. lia. Qed.
Lemma put_nth_out a e d j : (e + len d <= len a)%nat -> (j < e \/ e + len d <= j)%nat -> nth j (put a e d) 0 = nth j a 0.
Proof.
  intros H [C|C]; unfold put.
  - rewrite app_nth1 by (rewrite firstn_length; lia). apply nth_firstn_lt. lia.
  - rewrite app_nth2 by (rewrite firstn_length; lia). rewrite firstn_length. rewrite app_nth2 by lia. rewrite nth_skipn'. f_equal. lia.
Qed.
Lemma put_nth_in a e d j : (e + len d <= len a)%nat -> (e <= j < e + len d)%nat -> nth j (put a e d) 0 = nth (j - e) d 0.
Proof.
  intros H C. unfold put. rewrite app_nth2 by (rewrite firstn_length; lia). rewrite firstn_length. rewrite app_nth1 by lia. f_equal. lia.
Qed.
Lemma append_ok grow h s d : good h s -> exists h' s', append grow h s d = (h', s') /\
  only h h' (s_arr s) (s_off s + s_len s) (s_off s + s_len s + len d) /\ good h' s' /\ read h' s' = read h s ++ d /\ s_len s' = (s_len s + len d)%nat /\
  ((s_arr s' = s_arr s /\ s_off s' = s_off s) \/ (List.length h <= s_arr s')%nat).
Proof.
  intros G. destruct G as [G1 G2]. unfold append. destruct (s_off s + s_len s + len d <=? len (arr h (s_arr s)))%nat eqn:E.
  - set (h' := firstn (s_arr s) h ++ put (arr h (s_arr s)) (s_off s + s_len s) d :: skipn (S (s_arr s)) h).
    set (s' := Slc (s_arr s) (s_off s) (s_len s + len d)).
    assert (Lh : List.length h' = List.length h). { unfold h'. rewrite app_length, firstn_length. cbn [List.length]. rewrite skipn_length. lia. }
    assert (Ah : forall b, arr h' b = if (b =? s_arr s)%nat then put (arr h (s_arr s)) (s_off s + s_len s) d else arr h b) by (intros b; apply arr_upd; exact G1).
    assert (G' : good h' s'). { split; [rewrite Lh; exact G1|]. cbn [s' s_arr s_off s_len]. rewrite Ah, Nat.eqb_refl, put_len by lia. lia. }
    exists h', s'. split; [reflexivity|]. split.
    { split; [lia|]. intros b Hb. rewrite Ah. destruct (Nat.eqb_spec b (s_arr s)) as [->|Hn]; [|auto]. rewrite put_len by lia. split; [reflexivity|].
      intros j Hj. apply put_nth_out; lia. }
    split; [exact G'|]. split; [|split; [reflexivity|left; split; reflexivity]].
    apply nth_ext0. { rewrite app_length, !read_len; [reflexivity|split; assumption|exact G']. }
    rewrite read_len by exact G'. intros j Hj. rewrite nth_read by assumption. cbn [s' s_arr s_off s_len] in *. rewrite Ah, Nat.eqb_refl.
    pose proof (read_len h s (conj G1 G2)) as RL.
    destruct (Nat.lt_ge_cases j (s_len s)).
    + rewrite put_nth_out by lia. rewrite app_nth1 by lia. rewrite nth_read; [reflexivity|split; assumption|assumption].
    + rewrite put_nth_in by lia. rewrite app_nth2 by lia. f_equal. lia.
  - set (x := read h s ++ d ++ zeros (grow (s_len s + len d)%nat)). eexists _, _. split; [reflexivity|].
    assert (Ax : arr (h ++ [x]) (List.length h) = x) by (unfold arr; rewrite app_nth2, Nat.sub_diag by lia; reflexivity).
    pose proof (read_len h s (conj G1 G2)) as RL.
    split. { split; [rewrite app_length; cbn; lia|]. intros b Hb. unfold arr. rewrite app_nth1 by lia. auto. }
    split. { split; cbn [s_arr s_off s_len]; [rewrite app_length; cbn; lia|]. rewrite Ax. unfold x. rewrite !app_length. lia. }
    split; [|split; [reflexivity|right; cbn [s_arr]; lia]].
    unfold read at 1. cbn [s_arr s_off s_len skipn]. rewrite Ax. unfold x. rewrite app_assoc, firstn_app.
    rewrite app_length, RL, Nat.sub_diag. cbn [firstn]. rewrite app_nil_r. rewrite firstn_all2 by (rewrite app_length; lia). reflexivity.
Qed.

(** ** Adding and removing *)
Section E.
Context (g : N -> bool).
Definition added (ies : list (option iem)) (P : iem -> Prop) : Prop := forall x, In (Some x) ies -> P x.
Lemma octets_cons h x r : octets_of g h (Some x :: r) = wire2 g (view h x) ++ octets_of g h r.
Proof. reflexivity. Qed.
Lemma octets_somes h ies : octets_of g h ies = flat_map (fun x => wire2 g (view h x)) (somes ies).
Proof. induction ies as [|[x|] r IH]; cbn; [reflexivity| |exact IH]. f_equal. exact IH. Qed.
Lemma add_loop_m_ok grow h0 a lo hi ies : forall h p c, only h0 h a lo hi -> good h p ->
  (s_arr p = a /\ (lo <= s_off p + s_len p)%nat /\ (s_off p + s_len p + len (octets_of g h0 ies) <= hi)%nat) \/ (List.length h0 <= s_arr p)%nat ->
  added ies (fun x => inside h0 x /\ apart a lo hi x) ->
  exists h' p', add_loop_m g grow h ies p c = Ok (h', p', c ++ somes ies) /\ only h0 h' a lo hi /\ good h' p' /\ read h' p' = read h p ++ octets_of g h0 ies /\
    only h h' (s_arr p) (s_off p + s_len p) (s_off p + s_len p + len (octets_of g h0 ies)) /\
    ((s_arr p' = s_arr p /\ s_off p' = s_off p) \/ (List.length h <= s_arr p')%nat).
Proof.
  induction ies as [|[x|] r IH]; intros h p c O G C A.
  - exists h, p. cbn. rewrite !app_nil_r. split; [reflexivity|]. split; [exact O|]. split; [exact G|]. split; [reflexivity|]. split; [apply only_refl|auto].
  - destruct (A x (or_introl eq_refl)) as [Ix Ax]. cbn [add_loop_m]. rewrite (marshal2_ok g). rewrite (view_only _ _ _ _ _ _ O Ix Ax).
    rewrite octets_cons in C. rewrite app_length in C.
    destruct (append_ok grow h p (wire2 g (view h0 x)) G) as (h1 & p1 & E1 & O1 & G1 & R1 & L1 & D1). rewrite E1.
    assert (O' : only h0 h1 a lo hi). { eapply only_trans; [exact O|exact O1|]. destruct C as [(C1 & C2 & C3)|C]; [left; lia|right; exact C]. }
    destruct (IH h1 p1 (c ++ [x]) O' G1) as (h2 & p2 & E2 & O2 & G2 & R2 & Q2 & D2).
    { destruct D1 as [[D1 D1']|D1]; [destruct C as [(C1 & C2 & C3)|C]; [left; lia|right; lia]|right]. destruct O as [O _]. lia. }
    { intros y Hy. apply A. right. exact Hy. }
    exists h2, p2. rewrite E2. rewrite octets_cons, app_length.
    split; [cbn [somes flat_map]; rewrite <- app_assoc; reflexivity|]. split; [exact O2|]. split; [exact G2|]. split; [rewrite R2, R1, <- app_assoc; reflexivity|].
    split.
    + assert (O1' : only h h1 (s_arr p) (s_off p + s_len p) (s_off p + s_len p + (len (wire2 g (view h0 x)) + len (octets_of g h0 r)))).
      { eapply only_trans; [apply only_refl|exact O1|left; lia]. }
      eapply only_trans; [exact O1'|exact Q2|]. destruct D1 as [[D1 D1']|D1]; [left; lia|right; lia].
    + destruct D2 as [[D2 D2']|D2]; [|right; destruct O1; lia]. destruct D1 as [[D1 D1']|D1]; [left; split; congruence|right; lia].
  - cbn [add_loop_m somes flat_map app]. apply IH; auto. intros y Hy. apply A. right. exact Hy.
Qed.
Lemma view_eq h t l n p c : view h (IEM t l n p c) = IE2 t l n (read h p) (map (view h) c).
Proof. reflexivity. Qed.
Lemma somes_map h ies : somes (map (option_map (view h)) ies) = map (view h) (somes ies).
Proof. induction ies as [|[x|] r IH]; cbn; [reflexivity| |exact IH]. f_equal. exact IH. Qed.
Lemma flat_map_map {A B C} (f : B -> list C) (k : A -> B) l : flat_map f (map k l) = flat_map (fun x => f (k x)) l.
Proof. induction l; cbn; congruence. Qed.
Lemma in_somes (x : iem) ies : In x (somes ies) <-> In (Some x) ies.
Proof.
  induction ies as [|[y|] r IH]; cbn; [tauto| |]; rewrite IH; [|intuition discriminate]. split; intros [H|H]; auto; [left; congruence|inversion H; auto].
Qed.
Lemma add_m_ok grow h i ies : let a := s_arr (im_payload i) in let lo := ends_at i in let hi := (lo + len (octets_of g h ies))%nat in
  g (im_type i) = true -> inside h i -> apart a lo hi i -> added ies (fun x => inside h x /\ apart a lo hi x) ->
  exists h' i', add_m g grow h i ies = Ok (h', i') /\ only h h' a lo hi /\ inside h' i' /\ add2 g (view h i) (map (option_map (view h)) ies) = Ok (view h' i').
Proof.
  destruct i as [t l n p c]. cbn [im_payload im_type ends_at]. cbv zeta. intros Hg I Ap A. unfold ends_at in *. cbn [im_payload] in *.
  rewrite inside_iff in I. rewrite apart_iff in Ap. destruct I as [Gp Ic]. destruct Ap as [_ Ac].
  cbn [add_m]. rewrite Hg. cbn [negb].
  destruct (add_loop_m_ok grow h (s_arr p) (s_off p + s_len p) (s_off p + s_len p + len (octets_of g h ies)) ies h p c (only_refl _ _ _ _) Gp) as (h' & p' & E & O & G' & R & _ & _); [left; lia|exact A|].
  rewrite E. cbn [bind]. eexists _, _. split; [reflexivity|]. split; [exact O|].
  assert (Is : Forall (inside h) (somes ies) /\ Forall (apart (s_arr p) (s_off p + s_len p) (s_off p + s_len p + len (octets_of g h ies))) (somes ies)).
  { rewrite !Forall_forall. split; intros x Hx; apply A; apply in_somes; exact Hx. } destruct Is as [Is As].
  split.
  - cbn [set_length_m]. rewrite inside_iff. split; [exact G'|]. apply Forall_app. split; eapply Forall_impl; try (intros x; exact (inside_only _ _ _ _ _ x O)); assumption.
  - rewrite view_eq, add2_ok by exact Hg. cbn [set_length_m]. rewrite view_eq, R, map_app, somes_map, flat_map_map, octets_somes.
    rewrite (views_only _ _ _ _ _ c O Ic Ac), (views_only _ _ _ _ _ _ O Is As). do 2 f_equal.
    rewrite <- (read_len h' p' G'), R, octets_somes. reflexivity.
Qed.
Definition keepm (typ ins : N) (x : iem) : bool := negb ((im_type x =? typ) && (N.land (im_inst x) 15 =? ins)).
Lemma remove_loop_m_ok grow h0 typ ins cs : forall h kept p, only h0 h (List.length h0) 0 0 -> good h p -> (List.length h0 <= s_arr p)%nat -> Forall (inside h0) cs ->
  exists h' p', remove_loop_m g grow h typ ins cs (map Some kept ++ repeat None (List.length cs)) (List.length kept) p
    = Ok (h', map Some (kept ++ filter (keepm typ ins) cs), p') /\ only h0 h' (List.length h0) 0 0 /\ good h' p' /\
    read h' p' = read h p ++ flat_map (fun x => wire2 g (view h0 x)) (filter (keepm typ ins) cs).
Proof.
  induction cs as [|x r IH]; intros h kept p O G C A; cbn [remove_loop_m filter List.length repeat].
  - exists h, p. rewrite !app_nil_r. auto.
  - apply Forall_cons_iff in A. destruct A as [Ax A]. fold (keepm typ ins x).
    assert (Hk : keepm typ ins x = negb ((im_type x =? typ) && (N.land (im_inst x) 15 =? ins))) by reflexivity.
    destruct ((im_type x =? typ) && (N.land (im_inst x) 15 =? ins)); rewrite Hk; cbn [negb].
    + set (L := map Some kept ++ None :: repeat None (List.length r)).
      assert (HL : L = (map Some kept ++ repeat None (List.length r)) ++ [None]).
      { unfold L. rewrite <- app_assoc. f_equal. change [None] with (repeat (@None iem) 1). rewrite <- repeat_app, Nat.add_1_r. reflexivity. }
      rewrite slice_ok by lia. cbn [skipn bind]. rewrite Nat.sub_0_r.
      replace (firstn (List.length L - 1) L) with (map Some kept ++ repeat (@None iem) (List.length r)).
      2:{ rewrite HL at 2. rewrite firstn_app_exact; [reflexivity|]. rewrite HL, app_length. cbn. lia. }
      apply IH; assumption.
    + replace (List.length kept <? List.length (map Some kept ++ None :: repeat None (List.length r)))%nat with true
        by (rewrite app_length, map_length; cbn [List.length]; lia).
      rewrite (marshal2_ok g).
      assert (Vx : view h x = view h0 x). { apply (view_only _ _ _ _ _ _ O Ax). eapply Forall_impl; [|exact Ax]. intros s [Hs _]. left. lia. } rewrite Vx.
      destruct (append_ok grow h p (wire2 g (view h0 x)) G) as (h1 & p1 & E1 & O1 & G1 & R1 & L1 & D1). rewrite E1.
      replace (firstn (List.length kept) (map Some kept ++ None :: repeat None (List.length r)) ++ Some x :: skipn (S (List.length kept)) (map Some kept ++ None :: repeat None (List.length r)))
        with (map Some (kept ++ [x]) ++ repeat None (List.length r)).
      2:{ rewrite map_app. cbn [map]. rewrite <- app_assoc. cbn [app].
          rewrite <- (map_length Some kept) at 1. rewrite firstn_app, Nat.sub_diag, firstn_O, app_nil_r, firstn_all. do 2 f_equal.
          rewrite <- (map_length Some kept). rewrite skipn_app. rewrite skipn_all2 by lia.
          replace (S (List.length (map Some kept)) - List.length (map Some kept))%nat with 1%nat by lia. reflexivity. }
      replace (S (List.length kept)) with (List.length (kept ++ [x])) by (rewrite app_length; cbn; lia).
      destruct (IH h1 (kept ++ [x]) p1) as (h2 & p2 & E2 & O2 & G2 & R2); [|exact G1| |exact A|].
      { eapply only_trans; [exact O|exact O1|]. right. exact C. }
      { destruct D1 as [[-> _]|D1]; [exact C|]. destruct O as [O _]. lia. }
      exists h2, p2. rewrite E2. split; [rewrite <- app_assoc; reflexivity|]. split; [exact O2|]. split; [exact G2|]. rewrite R2, R1. cbn [flat_map]. rewrite <- app_assoc. reflexivity.
Qed.
Lemma keepm_view h typ ins x : keep typ ins (view h x) = keepm typ ins x.
Proof. destruct x. reflexivity. Qed.
Lemma filter_map {A B} (f : A -> B) (q : B -> bool) (q' : A -> bool) l : (forall x, q (f x) = q' x) -> filter q (map f l) = map f (filter q' l).
Proof. intros H. induction l as [|x r IH]; cbn; [reflexivity|]. rewrite H. destruct (q' x); cbn; congruence. Qed.
Lemma apart_out h h' i lo hi : inside h i -> (List.length h <= h')%nat -> apart h' lo hi i.
Proof. intros I L. eapply Forall_impl; [|exact I]. intros s [Hs _]. left. lia. Qed.
Lemma remove_m_ok grow h i typ ins : g (im_type i) = true -> inside h i ->
  exists h' i', remove_m g grow h i typ ins = Ok (h', i') /\ only h h' (List.length h) 0 0 /\ inside h' i' /\ remove2 g (view h i) typ ins = Ok (view h' i').
Proof.
  destruct i as [t l n p c]. cbn [im_type]. intros Hg I. rewrite inside_iff in I. destruct I as [Gp Ic]. cbn [remove_m]. rewrite Hg. cbn [negb].
  assert (O0 : only h (h ++ [[]]) (List.length h) 0 0).
  { split; [rewrite app_length; lia|]. intros b Hb. unfold arr. rewrite app_nth1 by lia. auto. }
  assert (G0 : good (h ++ [[]]) (Slc (List.length h) 0 0)). { split; cbn [s_arr s_off s_len]; [rewrite app_length; cbn; lia|lia]. }
  destruct (remove_loop_m_ok grow h typ ins c (h ++ [[]]) [] _ O0 G0) as (h' & p' & E & O & G' & R); [cbn; lia|exact Ic|].
  cbn [map app List.length] in E. rewrite E. cbn [bind]. rewrite no_nils_some. eexists _, _. split; [reflexivity|]. split; [exact O|].
  assert (If : Forall (inside h) (filter (keepm typ ins) c)). { rewrite Forall_forall in *. intros x Hx. apply filter_In in Hx. apply Ic. tauto. }
  split.
  - cbn [set_length_m]. rewrite inside_iff. split; [exact G'|]. eapply Forall_impl; [intros x; exact (inside_only _ _ _ _ _ x O)|exact If].
  - rewrite view_eq, remove2_ok by exact Hg. cbv zeta. cbn [set_length_m]. rewrite view_eq, R.
    rewrite (filter_map (view h) (keep typ ins) (keepm typ ins)) by (intros; apply keepm_view).
    rewrite (views_only _ _ _ _ _ _ O If) by (eapply Forall_impl; [intros x Hx; eapply apart_out; [exact Hx|reflexivity]|exact If]).
    rewrite flat_map_map. cbn [read s_len firstn app]. do 2 f_equal. rewrite <- (read_len h' p' G'), R. reflexivity.
Qed.
End E.
