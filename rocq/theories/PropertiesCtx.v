(** C55, constructors: a Bearer Context made by any of the constructors holds exactly the IEs
    it was given, in the order of the arguments, survives the wire, and is read back by the
    accessors. *)
From Coq Require Import Lia.
From Verif Require Import Base BaseLemmas V2IE V2IESpec V2IEProofs V2Codec V2Ctx CodecSpec MsgSpec
  V2CodecProofs V2CodecProofs5 PropertiesBase.
Open Scope N_scope.
Open Scope list_scope.

(** the IEs fit a Bearer Context: each well-formed, 65535 octets at most, at least one *)
Definition fits (g : N -> bool) (ies : list (option ie2)) : Prop :=
  Forall (wf2 g) (nonnil ies) /\ (len (flat_map (wire2 g) (nonnil ies)) < N.to_nat 65536)%nat /\ nonnil ies <> [].
(** [i] is the Bearer Context of these IEs: these are its children; sent and parsed again it is
    the same, and BearerContext returns them *)
Definition context_of (g : N -> bool) (ies : list (option ie2)) (i : ie2) : Prop :=
  wf2 g i /\ i2_type i = 93 /\ i2_instance i = 0 /\ i2_children i = nonnil ies /\
  (exists b, marshal2 g i = Ok b /\ forall more, parse2 g (b ++ more) = Ok i) /\
  bearer_context g i = Ok (nonnil ies).
(** the constructor with result [r] makes the Bearer Context of [ies] *)
Definition bears (g : N -> bool) (r : res (option ie2)) (ies : list (option ie2)) : Prop :=
  fits g ies -> exists i, r = Ok (Some i) /\ context_of g ies i.

Lemma somes_nonnil {A} (l : list (option A)) : somes l = nonnil l.
Proof. reflexivity. Qed.
Lemma new_bears g ies : g 93 = true -> bears g (new_bearer_context g ies) ies.
Proof.
  intros Hg [Hf [Hl Hn]].
  assert (Hl' : N.of_nat (len (flat_map (wire2 g) (nonnil ies))) < 65536) by lia.
  destruct (C06_v2_new_grouped_consistent g 93 ies Hg eq_refl Hf Hl') as [i [Hi [Hw [Hc Ht]]]].
  exists i. split; [exact Hi|]. unfold new_bearer_context in Hi. rewrite new_grouped_ok in Hi. injection Hi as Hi.
  split; [exact Hw|]. split; [exact Ht|]. split; [subst i; reflexivity|]. split; [exact Hc|]. split.
  - exists (wire2 g i). split; [apply marshal2_ok|]. intros more. apply parse2_wire, Hw.
  - unfold bearer_context. rewrite Ht. change (negb (93 =? 93)) with false. cbv iota. subst i. cbn [i2_payload].
    change (somes ies) with (nonnil ies).
    assert (L : (4 <= len (flat_map (wire2 g) (nonnil ies)))%nat).
    { destruct (nonnil ies) as [|x r]; [congruence|]. cbn [flat_map]. rewrite app_length, len_wire. pose proof (mlen_ge4 g x). lia. }
    rewrite (proj2 (Nat.ltb_ge _ 1)) by lia. apply multi2_wire; assumption.
Qed.

Theorem C55_contexts_hold_all : forall g, g 93 = true ->
  forall ebi tft qos charge_id flags pco apco epco mplr cause rannas_cause container ti fwd (fteids : list (option ie2)),
  bears g (within_create_bearer_request g ebi tft qos charge_id flags pco epco mplr fteids)
          (ebi :: tft :: qos :: charge_id :: flags :: pco :: epco :: mplr :: fteids) /\
  bears g (within_create_bearer_response g ebi cause pco rannas_cause epco fteids)
          (ebi :: cause :: pco :: rannas_cause :: epco :: fteids) /\
  bears g (within_delete_bearer_request g ebi cause) [ebi; cause] /\
  bears g (within_delete_bearer_response g ebi cause pco rannas_cause epco) [ebi; cause; pco; rannas_cause; epco] /\
  bears g (within_modify_bearer_command g ebi qos) [ebi; qos] /\
  bears g (within_update_bearer_request g ebi tft qos flags pco apco epco mplr) [ebi; tft; qos; flags; pco; apco; epco; mplr] /\
  bears g (within_update_bearer_response g ebi cause pco rannas_cause epco fteids)
          (ebi :: cause :: pco :: rannas_cause :: epco :: fteids) /\
  bears g (within_delete_bearer_command g ebi flags rannas_cause) [ebi; flags; rannas_cause] /\
  bears g (within_delete_bearer_failure g ebi cause) [ebi; cause] /\
  bears g (within_create_indirect_request g ebi fteids) (ebi :: fteids) /\
  bears g (within_create_indirect_response g ebi cause fteids) (ebi :: cause :: fteids) /\
  bears g (within_forward_relocation g ebi tft qos container ti flags fteids)
          (ebi :: tft :: qos :: container :: ti :: flags :: fteids) /\
  bears g (within_context_response g ebi tft qos container ti fteids) (ebi :: tft :: qos :: container :: ti :: fteids) /\
  bears g (within_context_ack g ebi fwd) [ebi; fwd] /\
  (forall ies, bears g (new_bearer_context g ies) ies).
Proof. intros g Hg. intros. repeat apply conj; intros; exact (new_bears g _ Hg). Qed.
Print Assumptions C55_contexts_hold_all.

Definition x_e : option ie2 := Some (new_ebi dg 5).
Definition x_c : option ie2 := Some (new_cause dg 16 0 0 0 None).
Definition x_f : option ie2 := Some (IE2 87 3 1 [1; 2; 3] []).
Example C55_contexts_example : fits dg [x_e; x_c; None; None; None; x_f; None] /\
  option_map i2_payload (match within_create_bearer_response dg x_e x_c None None None [x_f; None] with Ok o => o | _ => None end) =
  Some [73; 0; 1; 0; 5; 2; 0; 2; 0; 16; 0; 87; 0; 3; 1; 1; 2; 3].
Proof.
  split; [|vm_compute; reflexivity]. split; [|split].
  - repeat constructor; reflexivity.
  - apply Nat.ltb_lt. vm_compute. reflexivity.
  - discriminate.
Qed.

(** What the accessors say of such a Bearer Context, in terms of the arguments: a nil argument
    is not found, any other one is read as if alone. *)
Definition asks {A} (acc : ie2 -> res A) (arg : option ie2) : res A :=
  match arg with Some x => acc x | None => Err EIENotFound end.
Definition of_type (t : N) (arg : option ie2) : Prop := forall x, arg = Some x -> i2_type x = t.
(** the accessor gives for the context what it gives for the first of the IEs with type t *)
Fixpoint first_of (t : N) (ies : list (option ie2)) : option ie2 :=
  match ies with
  | [] => None
  | Some x :: r => if i2_type x =? t then Some x else first_of t r
  | None :: r => first_of t r
  end.
Lemma first_of_find t ies : find (fun c => i2_type c =? t) (nonnil ies) = first_of t ies.
Proof.
  induction ies as [|[x|] r IH]; [reflexivity| |exact IH]. cbn [nonnil flat_map app find first_of].
  destruct (i2_type x =? t); [reflexivity|exact IH].
Qed.
Theorem C55_contexts_read : forall g ies i, g 93 = true -> fits g ies -> context_of g ies i ->
  acc_ebi g i = asks (acc_ebi g) (first_of 73 ies) /\
  acc_charging_id g i = asks (acc_charging_id g) (first_of 94 ies) /\
  acc_bearer_flags g i = asks (acc_bearer_flags g) (first_of 97 ies) /\
  acc_cause g i = asks (acc_cause g) (first_of 2 ies) /\
  acc_bqos g i = asks (acc_bqos g) (first_of 80 ies) /\
  acc_ran_nas_cause g i = asks (acc_ran_nas_cause g) (first_of 172 ies).
Proof.
  intros g ies i Hg [_ [_ Hn]] [Hw [Ht [_ [Hc _]]]].
  assert (K : forall A t (f : ie2 -> res A), t <> 93 -> via_context g t f i = asks (via_context g t f) (first_of t ies)).
  { intros A t f Hne. rewrite via_context_wf by (try assumption; congruence). rewrite Hc, first_of_find.
    destruct (first_of t ies) as [c|] eqn:E; [|reflexivity]. rewrite <- first_of_find in E.
    apply find_some in E. destruct E as [_ E]. cbn [asks]. unfold via_context. rewrite E. reflexivity. }
  repeat split; apply K; discriminate.
Qed.
Print Assumptions C55_contexts_read.

Lemma first_hit t a r : of_type t a -> Forall (fun b => forall x, b = Some x -> i2_type x <> t) r -> first_of t (a :: r) = a.
Proof.
  intros Ha Hr. cbn [first_of]. destruct a as [x|].
  - rewrite (Ha x eq_refl), N.eqb_refl. reflexivity.
  - induction Hr as [|b r Hb Hr IH]; [reflexivity|]. cbn [first_of]. destruct b as [x|]; [|exact IH].
    destruct (N.eqb_spec (i2_type x) t) as [E|]; [destruct (Hb x eq_refl E)|exact IH].
Qed.
Lemma first_miss t a r : (forall x, a = Some x -> i2_type x <> t) -> first_of t (a :: r) = first_of t r.
Proof.
  intros Ha. cbn [first_of]. destruct a as [x|]; [|reflexivity].
  destruct (N.eqb_spec (i2_type x) t) as [E|]; [destruct (Ha x eq_refl E)|reflexivity].
Qed.
Lemma other_type t u a : of_type u a -> u <> t -> forall x, a = Some x -> i2_type x <> t.
Proof. intros H Hn x Hx E. apply Hn. rewrite <- E. symmetry. exact (H x Hx). Qed.
Lemma other_types t u l : Forall (of_type u) l -> u <> t -> Forall (fun b => forall x, b = Some x -> i2_type x <> t) l.
Proof. intros H Hn. eapply Forall_impl; [|exact H]. intros a Ha. exact (other_type t u a Ha Hn). Qed.
Ltac pick := repeat first
  [ apply first_hit; [eassumption|] | rewrite first_miss by (eapply other_type; [eassumption|discriminate])
  | apply Forall_cons; [eapply other_type; [eassumption|discriminate]|] | apply Forall_nil
  | eapply other_types; [eassumption|discriminate] ].

(** The two with most arguments, for arguments of the types they are named for. *)
Theorem C55_create_bearer_request : forall g ebi tft qos charge_id flags pco epco mplr fteids i, g 93 = true ->
  of_type 73 ebi -> of_type 84 tft -> of_type 80 qos -> of_type 94 charge_id -> of_type 97 flags -> of_type 78 pco ->
  of_type 197 epco -> of_type 203 mplr -> Forall (of_type 87) fteids ->
  fits g (ebi :: tft :: qos :: charge_id :: flags :: pco :: epco :: mplr :: fteids) ->
  within_create_bearer_request g ebi tft qos charge_id flags pco epco mplr fteids = Ok (Some i) ->
  acc_ebi g i = asks (acc_ebi g) ebi /\ acc_bqos g i = asks (acc_bqos g) qos /\
  acc_charging_id g i = asks (acc_charging_id g) charge_id /\ acc_bearer_flags g i = asks (acc_bearer_flags g) flags.
Proof.
  intros g ebi tft qos charge_id flags pco epco mplr fteids i Hg. intros.
  match goal with F : fits _ ?l, E : _ = Ok (Some i) |- _ =>
    destruct (new_bears g l Hg F) as [j [Hj Hc]]; change (new_bearer_context g l = Ok (Some i)) in E; rewrite E in Hj;
    injection Hj as <-; destruct (C55_contexts_read g l i Hg F Hc) as [-> [-> [-> [_ [-> _]]]]] end.
  repeat split; f_equal; pick.
Qed.
Print Assumptions C55_create_bearer_request.
Theorem C55_create_bearer_response : forall g ebi cause pco rannas_cause epco fteids i, g 93 = true ->
  of_type 73 ebi -> of_type 2 cause -> of_type 78 pco -> of_type 172 rannas_cause -> of_type 197 epco -> Forall (of_type 87) fteids ->
  fits g (ebi :: cause :: pco :: rannas_cause :: epco :: fteids) ->
  within_create_bearer_response g ebi cause pco rannas_cause epco fteids = Ok (Some i) ->
  acc_ebi g i = asks (acc_ebi g) ebi /\ acc_cause g i = asks (acc_cause g) cause /\
  acc_ran_nas_cause g i = asks (acc_ran_nas_cause g) rannas_cause.
Proof.
  intros g ebi cause pco rannas_cause epco fteids i Hg. intros.
  match goal with F : fits _ ?l, E : _ = Ok (Some i) |- _ =>
    destruct (new_bears g l Hg F) as [j [Hj Hc]]; change (new_bearer_context g l = Ok (Some i)) in E; rewrite E in Hj;
    injection Hj as <-; destruct (C55_contexts_read g l i Hg F Hc) as [-> [_ [_ [-> [_ ->]]]]] end.
  repeat split; f_equal; pick.
Qed.
Print Assumptions C55_create_bearer_response.
Example C55_create_bearer_response_example :
  match within_create_bearer_response dg x_e x_c None None None [x_f; None] with
  | Ok (Some i) => (acc_ebi dg i, acc_cause dg i, acc_ran_nas_cause dg i)
  | _ => (Panic, Panic, Panic)
  end = (Ok 5, Ok 16, Err EIENotFound).
Proof. vm_compute. reflexivity. Qed.

(** With nothing but nil arguments the Bearer Context is empty and BearerContext fails. *)
Theorem C55_empty_context : forall g n, exists i,
  new_bearer_context g (repeat None n) = Ok (Some i) /\ i2_children i = [] /\ bearer_context g i = Err EUnexpectedEOF.
Proof.
  intros g n. unfold new_bearer_context. rewrite new_grouped_ok.
  assert (E : somes (repeat None n) = @nil ie2) by (induction n as [|n IH]; [reflexivity|exact IH]).
  rewrite E. eexists. repeat split.
Qed.
Print Assumptions C55_empty_context.
