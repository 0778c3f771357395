(** The laws of maps. *)
From Verif Require Import Base BaseLemmas Maps.
Open Scope N_scope.
Open Scope list_scope.

Lemma aget_adel {A} (m : amap A) k x : aget (adel m k) x = if x =? k then None else aget m x.
Proof.
  unfold adel in *. induction m as [|[y v] m IH]; cbn; [now destruct (x =? k)|].
  destruct (y =? k) eqn:E; cbn.
  - apply N.eqb_eq in E. subst. rewrite IH. destruct (x =? k) eqn:F; [reflexivity|].
    rewrite N.eqb_sym in F. now rewrite F.
  - rewrite IH. destruct (y =? x) eqn:F; [|reflexivity].
    apply N.eqb_eq in F. subst. now rewrite E.
Qed.
Lemma aget_aput {A} (m : amap A) k v x : aget (aput m k v) x = if x =? k then Some v else aget m x.
Proof.
  unfold aput. cbn. rewrite N.eqb_sym. destruct (x =? k) eqn:E; [reflexivity|].
  rewrite aget_adel. now rewrite E.
Qed.
Lemma aget_some {A} (m : amap A) : m <> [] -> exists k v, aget m k = Some v.
Proof. destruct m as [|[k v] m]; [congruence|]. intros _. exists k, v. cbn. now rewrite N.eqb_refl. Qed.

Lemma bytes_eqb_eq a b : bytes_eqb a b = true <-> a = b.
Proof.
  unfold bytes_eqb. revert b. induction a as [|x a IH]; intros [|y b]; cbn; try (split; congruence).
  rewrite Bool.andb_true_iff, N.eqb_eq, IH. split; [intros [-> ->]; reflexivity|intros [= -> ->]; auto].
Qed.
Lemma bytes_eqb_refl a : bytes_eqb a a = true.
Proof. now apply bytes_eqb_eq. Qed.
Lemma bytes_eqb_sym a b : bytes_eqb a b = bytes_eqb b a.
Proof.
  destruct (bytes_eqb a b) eqn:E, (bytes_eqb b a) eqn:F; auto.
  - apply bytes_eqb_eq in E. subst. now rewrite bytes_eqb_refl in F.
  - apply bytes_eqb_eq in F. subst. now rewrite bytes_eqb_refl in E.
Qed.
Lemma bytes_eqb_neq a b : bytes_eqb a b = false <-> a <> b.
Proof.
  split.
  - intros E ->. now rewrite bytes_eqb_refl in E.
  - intros N. destruct (bytes_eqb a b) eqn:E; [|reflexivity]. now apply bytes_eqb_eq in E.
Qed.

Lemma sget_sdel {A} (m : smap A) k x : sget (sdel m k) x = if bytes_eqb x k then None else sget m x.
Proof.
  unfold sdel in *. induction m as [|[y v] m IH]; cbn; [now destruct (bytes_eqb x k)|].
  destruct (bytes_eqb y k) eqn:E; cbn.
  - apply bytes_eqb_eq in E. subst. rewrite IH. destruct (bytes_eqb x k) eqn:F; [reflexivity|].
    rewrite bytes_eqb_sym in F. now rewrite F.
  - rewrite IH. destruct (bytes_eqb y x) eqn:F; [|reflexivity].
    apply bytes_eqb_eq in F. subst. now rewrite E.
Qed.
Lemma sget_sput {A} (m : smap A) k v x : sget (sput m k v) x = if bytes_eqb x k then Some v else sget m x.
Proof.
  unfold sput. cbn. rewrite bytes_eqb_sym. destruct (bytes_eqb x k) eqn:E; [reflexivity|].
  rewrite sget_sdel. now rewrite E.
Qed.

(** maps built by these operations hold each key once *)
Definition keys_once {A} (m : amap A) : Prop := NoDup (map fst m).
Definition skeys_once {A} (m : smap A) : Prop := NoDup (map fst m).
Lemma filter_keys {K A} (p : K * A -> bool) (m : list (K * A)) : NoDup (map fst m) -> NoDup (map fst (filter p m)).
Proof.
  induction m as [|[k v] m IH]; cbn; [auto|]. intros H. inversion H as [|? ? N D]; subst.
  destruct (p (k, v)); cbn; [|auto]. constructor; [|auto]. intros C. apply N.
  apply in_map_iff in C as ([k' v'] & <- & C). apply filter_In in C as [C _]. apply in_map_iff. eexists; eauto.
Qed.
Lemma keys_aput {A} (m : amap A) k v : keys_once m -> keys_once (aput m k v).
Proof.
  intros H. unfold keys_once, aput. cbn. constructor; [|now apply filter_keys].
  intros C. apply in_map_iff in C as ([k' v'] & E & C). cbn in E. subst k'. apply filter_In in C as [_ C]. cbn in C.
  now rewrite N.eqb_refl in C.
Qed.
Lemma skeys_sput {A} (m : smap A) k v : skeys_once m -> skeys_once (sput m k v).
Proof.
  intros H. unfold skeys_once, sput. cbn. constructor; [|now apply filter_keys].
  intros C. apply in_map_iff in C as ([k' v'] & E & C). cbn in E. subst k'. apply filter_In in C as [_ C]. cbn in C.
  now rewrite bytes_eqb_refl in C.
Qed.
Lemma skeys_sdel {A} (m : smap A) k : skeys_once m -> skeys_once (sdel m k).
Proof. apply filter_keys. Qed.
Lemma sget_In {A} (m : smap A) k v : skeys_once m -> (sget m k = Some v <-> In (k, v) m).
Proof.
  induction m as [|[x u] m IH]; cbn; [split; [discriminate|contradiction]|]. intros H. inversion H as [|? ? N D]; subst.
  destruct (bytes_eqb x k) eqn:E.
  - apply bytes_eqb_eq in E. subst. split; [intros [= ->]; auto|]. intros [[= ->]|C]; [reflexivity|].
    exfalso. apply N. apply in_map_iff. now exists (k, v).
  - apply bytes_eqb_neq in E. rewrite IH by exact D. split; [auto|]. intros [[= -> ->]|C]; [congruence|auto].
Qed.
Lemma aget_filter {A} (m : amap A) p k : keys_once m ->
  aget (filter p m) k = match aget m k with Some v => if p (k, v) then Some v else None | None => None end.
Proof.
  induction m as [|[x v] m IH]; cbn; [auto|]. intros H. inversion H as [|? ? N D]; subst.
  destruct (x =? k) eqn:E.
  - apply N.eqb_eq in E. subst. destruct (p (k, v)) eqn:P; cbn; [now rewrite N.eqb_refl|].
    rewrite IH by exact D. destruct (aget m k) as [u|] eqn:G; [|reflexivity]. exfalso. apply N.
    clear - G. induction m as [|[y w] m IH]; [discriminate|]. cbn in G. destruct (y =? k) eqn:E.
    + apply N.eqb_eq in E. subst. now left.
    + right. auto.
  - destruct (p (x, v)); cbn; [rewrite E|]; apply IH; exact D.
Qed.
