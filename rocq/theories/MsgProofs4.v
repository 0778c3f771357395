(** Messages whose MarshalTo does not clear a stale Header.Payload. *)
From Coq Require Import String Permutation Lia ZifyBool.
From Verif Require Import Base BaseLemmas MsgModel MsgProofs MsgProofs2 MsgProofs3 MsgSpec.
Open Scope list_scope.

Section Msg.
Context {I H : Type} (io : ieops I) (ho : hdops H).
Notation fmap := (@MsgModel.fmap I).
Notation msg := (@MsgModel.msg I H).
Context (wf : I -> Prop) (wire : I -> bytes) (IL : ie_laws io wf wire).
Context (hok : H -> Prop) (hbase : H -> nat) (hwire : H -> bytes) (hnorm : H -> H) (hmin : nat) (sub : N).
Context (HL : hd_laws ho hok hbase hwire hnorm hmin sub).
Context (Hshort : forall i x, io_mto io i [] <> Ok x).

Lemma mto_one_short i adv off x : mto_one io i adv off [] <> Ok x.
Proof.
  unfold mto_one, on_slice_from, on_slice. intros E. apply bind_ok_inv in E. destruct E as (p & E & _).
  apply bind_ok_inv in E. destruct E as (s & Es & E). apply slice_inv in Es. destruct Es as (_ & Hl & -> & _).
  cbn [List.length] in Hl. replace (firstn _ _) with (@nil N) in E by (destruct off; reflexivity).
  apply bind_ok_inv in E. destruct E as (? & E & _). exact (Hshort _ _ E).
Qed.

Lemma mto_steps_short fs (m : fmap) ss : shape fs m -> in_order m (map step_field ss) <> [] ->
  Forall (fun s => has_field fs (step_kind s, step_field s) = true) ss ->
  forall off x, mto_steps io ss m off [] <> Ok x.
Proof.
  intros Hs. induction ss as [|s r IH]; intros Hn Hall off x E; [apply Hn; reflexivity|].
  cbn [mto_steps] in E. apply bind_ok_inv in E. destruct E as ([p off'] & E1 & E).
  assert (Hv : fget m (step_field s) = map Some (vals m (step_field s))) by (apply (vals_map fs), Hs).
  inversion Hall as [|? ? _ Hall2]; subst. destruct s as [f adv|f skip adv]; cbn [mto_step step_field] in *; rewrite Hv in E1.
  - destruct (vals m f) as [|i0 l0] eqn:El; cbn [map] in E1.
    + injection E1 as <- <-. refine (IH _ Hall2 _ _ E). intros Hi. apply Hn. cbn [map step_field in_order flat_map].
      unfold vals in El. rewrite El. exact Hi.
    + exact (mto_one_short _ _ _ _ E1).
  - destruct (vals m f) as [|i0 l0] eqn:El; cbn [map mto_list] in E1.
    + injection E1 as <- <-. refine (IH _ Hall2 _ _ E). intros Hi. apply Hn. cbn [map step_field in_order flat_map].
      unfold vals in El. rewrite El. exact Hi.
    + apply bind_ok_inv in E1. destruct E1 as (y & E1 & _). exact (mto_one_short _ _ _ _ E1).
Qed.

(** a message carrying a payload at least as large as its IEs cannot be marshalled *)
Theorem stale_fails d (m : msg) b x : fields_ok d = true -> md_reset d = false -> shape (md_fields d) (m_fs m) ->
  all_wf wf (m_fs m) -> in_order (m_fs m) (order_of d) <> [] ->
  (len (body wire d (m_fs m)) <= len (ho_payload ho (m_hdr m)))%nat ->
  msg_mto io ho d m b <> Ok x.
Proof.
  intros Hd Hr Hs Hw Hne Hl E. destruct (fields_ok_parts d Hd) as (_ & _ & _ & P4 & _).
  unfold msg_mto in E. rewrite Hr in E.
  assert (Em : forall mm, m_hdr mm = m_hdr m -> m_fs mm = m_fs m ->
     msg_mlen io ho d mm = Ok (hbase (m_hdr m) + len (body wire d (m_fs m)))%nat).
  { intros mm <- Ef. rewrite (msg_mlen_ok io ho wf wire IL hok hbase hwire hnorm hmin sub HL d mm); rewrite ?Ef; auto. }
  rewrite (Em m) in E by reflexivity. cbn [bind] in E.
  destruct (md_check d && _)%bool; [discriminate|].
  rewrite Em in E by reflexivity. cbn [bind] in E. rewrite (hl_mlen _ _ _ _ _ _ _ HL) in E.
  unfold go_make in E. destruct (_ <? 0)%Z eqn:Ez; [discriminate|]. apply Z.ltb_ge in Ez. cbn [bind] in E.
  replace (Z.to_nat _) with 0%nat in E by lia. change (zeros 0) with (@nil N) in E.
  apply bind_ok_inv in E. destruct E as (y & E & _).
  exact (mto_steps_short (md_fields d) (m_fs m) (md_steps d) Hs Hne P4 0%nat y E).
Qed.
End Msg.
