(** Running a schedule, to show that a data race happens. *)
From Coq Require Import String Lia Bool Arith.
From Verif Require Import Base RaceModel RaceSpec RaceStatic RaceProofs RaceBound.
Open Scope N_scope.
Open Scope list_scope.

(** call a function with these objects; let goroutine i take its k-th choice (finding object o);
    let goroutine i take m first choices *)
Inductive act := C (t : string) (os : list N) | M (i k : nat) (o : N) | R (i m : nat).
Fixpoint bind_args (l : list (kind * N)) (os : list N) : N -> N :=
  match l, os with (_, x) :: l', o :: os' => upd (bind_args l' os') x o | _, _ => fun _ => 0 end.
Fixpoint rep (s : st) (i m : nat) : option st :=
  match m with
  | O => Some s
  | S m' => match moves s i 0 with s' :: _ => rep s' i m' | [] => None end
  end.
Definition do_act (s : st) (a : act) : option st :=
  match a with
  | C t os => let e := bind_args (args t) os in
      if inb t (map fst ops) && (e 0 =? 0) && forallb (fun a => s_known s (fst a) (e (snd a))) (args t) then Some (call s t e) else None
  | M i k o => nth_error (moves s i o) k
  | R i m => rep s i m
  end.
Fixpoint run (s : st) (l : list act) : option st :=
  match l with [] => Some s | a :: r => match do_act s a with Some s' => run s' r | None => None end end.

Definition next_access (t : thr) : option (field * N * bool) :=
  match t_code t with
  | Rd g x :: _ | Use g x :: _ | If g x _ _ :: _ => Some (g, t_env t x, false)
  | Wr g x _ :: _ => Some (g, t_env t x, true)
  | _ => None
  end.
Definition racyb (s : st) (a b : string) (f : field) (i j : nat) : bool :=
  match nth_error (s_thr s) i, nth_error (s_thr s) j with
  | Some p, Some q =>
      match next_access p, next_access q with
      | Some (f1, o1, w1), Some (f2, o2, w2) =>
          negb (Nat.eqb i j) && String.eqb (t_tag p) a && String.eqb (t_tag q) b && field_beq f1 f && field_beq f2 f && (o1 =? o2) && (w1 || w2)
      | _, _ => false
      end
  | _, _ => false
  end.

Lemma rep_reachable : forall m s i s', reachable s -> rep s i m = Some s' -> reachable s'.
Proof.
  induction m as [|m IH]; cbn; intros s i s' R0 H; [injection H as <-; exact R0|].
  destruct (moves s i 0) as [|s1 r] eqn:E; [discriminate|]. eapply IH; [|exact H].
  eapply reach_step; [exact R0|]. apply (step_move s i 0). rewrite E. left. reflexivity.
Qed.
Lemma do_act_reachable : forall s a s', reachable s -> do_act s a = Some s' -> reachable s'.
Proof.
  intros s [t os|i k o|i m] s' R0 H; unfold do_act in H.
  - destruct (inb t (map fst ops) && (bind_args (args t) os 0 =? 0) && forallb (fun a => s_known s (fst a) (bind_args (args t) os (snd a))) (args t)) eqn:E; [|discriminate].
    injection H as <-. rewrite !andb_true_iff in E. destruct E as [[E1 E2] E3]. eapply reach_step; [exact R0|]. constructor.
    + apply inb_in; exact E1.
    + apply N.eqb_eq; exact E2.
    + apply Forall_forall. rewrite forallb_forall in E3. exact E3.
  - eapply reach_step; [exact R0|]. apply (step_move s i o). eapply nth_error_In; exact H.
  - eapply rep_reachable; eassumption.
Qed.
Lemma run_reachable : forall l s s', reachable s -> run s l = Some s' -> reachable s'.
Proof.
  induction l as [|a l IH]; cbn; intros s s' R0 H; [injection H as <-; exact R0|].
  destruct (do_act s a) as [s1|] eqn:E; [|discriminate]. eapply IH; [|exact H]. eapply do_act_reachable; eassumption.
Qed.
Lemma next_about : forall t f o w, next_access t = Some (f, o, w) -> about_to t f o w.
Proof.
  intros t f o w H. unfold next_access in H. unfold about_to. destruct (t_code t) as [|c k]; [discriminate|].
  destruct c; try discriminate; injection H as <- <- <-; auto.
Qed.
Lemma racyb_racy : forall s a b f i j, racyb s a b f i j = true -> racy s a b f.
Proof.
  intros s a b f i j H. unfold racyb in H. destruct (nth_error (s_thr s) i) as [p|] eqn:P; [|discriminate].
  destruct (nth_error (s_thr s) j) as [q|] eqn:Q; [|discriminate].
  destruct (next_access p) as [[[f1 o1] w1]|] eqn:A1; [|discriminate]. destruct (next_access q) as [[[f2 o2] w2]|] eqn:A2; [|discriminate].
  rewrite !andb_true_iff in H. destruct H as [[[[[[H1 H2] H3] H4] H5] H6] H7].
  apply negb_true_iff, Nat.eqb_neq in H1. apply String.eqb_eq in H2, H3. apply field_beq_true in H4, H5. apply N.eqb_eq in H6. subst.
  exists i, j, p, q, o2, w1, w2. repeat (split; [assumption || reflexivity|]).
  split; [apply next_about; exact A1|]. split; [apply next_about; exact A2|exact H7].
Qed.
