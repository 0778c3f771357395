(** C74: what an error prints tells which error it is. *)
From Coq Require Import String Ascii.
From Verif Require Import Base BaseLemmas Print PrintProofs ErrText.
Local Open Scope string_scope.
Local Open Scope N_scope.
Local Open Scope list_scope.

(** A character does not occur in a text. *)
Definition free_of (c : ascii) (s : string) : Prop := forall n, String.get n s <> Some c.
(** The texts a caller puts in front of another field: the type of the message in a
    CauseNotOKError has no semicolon, the name in a RequiredParameterMissingError no space,
    the address in an ErrorIndicatedError no comma. *)
Definition plain (e : err_value) : Prop :=
  match e with
  | CauseNotOK _ t _ => free_of ";" t
  | RequiredParameterMissing n _ => free_of " " n
  | ErrorIndicated _ p => free_of "," p
  | _ => True
  end.

Lemma free_lacks c s : free_of c s -> lacks c s = true.
Proof.
  induction s as [|a s IH]; intros H; [reflexivity|]. cbn [lacks].
  assert (a <> c) as D by (intros ->; now apply (H 0%nat)).
  rewrite IH by (intros n; apply (H (S n))). rewrite andb_true_r. apply negb_true_iff, Ascii.eqb_neq. congruence.
Qed.
Lemma len_app_s (a b : string) : String.length (a ++ b)%string = (String.length a + String.length b)%nat.
Proof. induction a as [|x a IH]; [reflexivity|]. cbn. now rewrite IH. Qed.
Lemma app_s_inv_r (a b x : string) : (a ++ x = b ++ x)%string -> a = b.
Proof.
  revert b. induction a as [|c a IH]; intros [|d b] H; [reflexivity| | |].
  - exfalso. apply (f_equal String.length) in H. rewrite !len_app_s in H. cbn in H. lia.
  - exfalso. apply (f_equal String.length) in H. rewrite !len_app_s in H. cbn in H. lia.
  - cbn in H. injection H as -> H. f_equal. now apply IH.
Qed.

(** Two errors that print the same are the same error, unless both are
    UnexpectedIEErrors. *)
Theorem C74_errors_told : forall e e', plain e -> plain e' -> err_text e = err_text e' ->
  e = e' \/ exists t t', e = UnexpectedIE t /\ e' = UnexpectedIE t'.
Proof.
  intros e e' P P' H. destruct e, e'; try discriminate H; cbn [plain] in P, P'; unfold err_text in H;
    try (right; eexists; eexists; split; reflexivity); left; apply app_s_inv in H.
  - apply (split_at " ") in H; try (apply lacks_d; reflexivity). destruct H as [A H]. apply pr_d_inj in A. subst.
    apply (app_s_inv "in ") in H. apply (split_at ";") in H; try (now apply free_lacks). destruct H as [-> H]. apply (app_s_inv " ") in H. now subst.
  - apply pr_d_inj in H. now subst.
  - apply (split_at " ") in H; try (now apply free_lacks). destruct H as [-> H]. apply (app_s_inv "is missing. ") in H. now subst.
  - now subst.
  - apply app_s_inv_r, pr_d_inj in H. now subst.
  - apply pr_d_inj in H. now subst.
  - apply pr_0x_inj in H. now subst.
  - now subst.
  - now subst.
  - now subst.
  - now subst.
  - apply app_s_inv_r in H. now subst.
  - apply (split_at ",") in H; try (now apply free_lacks). destruct H as [-> H]. apply (app_s_inv " TEIDDataI: ") in H. apply pr_sx_inj in H. now subst.
  - apply pr_d_inj in H. now subst.
Qed.
(** An UnexpectedIEError never tells the type of the IE: it prints the Go type of the octet. *)
Theorem C74_unexpected_ie_refuted : forall t t', err_text (UnexpectedIE t) = err_text (UnexpectedIE t').
Proof. reflexivity. Qed.
Example C74_example : plain (CauseNotOK 64 "CreateSessionResponse" "subscriber: 1") /\
  err_text (InvalidTEID 258) = "got invalid TEID: 0x00000102" /\
  err_text (CauseNotOK 64 "CreateSessionResponse" "subscriber: 1") = "got non-OK Cause: 64 in CreateSessionResponse; subscriber: 1" /\
  plain (ErrorIndicated 1 "10.0.0.1:2152") /\ err_text (UnexpectedIE 87) = "got unexpected type of message: uint8".
Proof.
  assert (forall c s, lacks c s = true -> free_of c s) as K.
  { intros c s. induction s as [|a s IH]; intros H n; [destruct n; discriminate|]. cbn [lacks] in H. apply andb_prop in H as [A B].
    destruct n as [|n]; [|now apply IH]. cbn. intros [= ->]. rewrite Ascii.eqb_refl in A. discriminate. }
  split; [now apply K|]. split; [reflexivity|]. split; [reflexivity|]. split; [now apply K|reflexivity].
Qed.
Print Assumptions C74_errors_told.
Print Assumptions C74_unexpected_ie_refuted.
