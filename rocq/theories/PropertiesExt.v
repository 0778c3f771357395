(** C73: adding extension headers to a GTPv1 header (AddExtensionHeaders,
    WithExtensionHeaders, NewHeaderWithExtensionHeaders, IsComprehensionRequired). *)
From Coq Require Import String.
From Verif Require Import Base BaseLemmas V1Header V1HeaderSpec V1HeaderProofs V1Ext.
Local Open Scope string_scope.
Local Open Scope N_scope.
Local Open Scope list_scope.

(** Each extension header carries the type its predecessor announced; the last announces
    "no more extension headers". *)
Fixpoint linked (t : N) (es : list ext1) : Prop :=
  match es with
  | [] => t = 0
  | e :: r => eh_type e = t /\ linked (eh_next e) r
  end.
Definition well_linked (es : list ext1) : Prop :=
  match es with [] => True | e :: r => linked (eh_next e) r end.
(** the part of a list up to the first element of another type than announced *)
Fixpoint linked_part (t : N) (es : list ext1) : list ext1 :=
  match es with
  | [] => []
  | e :: r => if N.eq_dec (eh_type e) t then e :: linked_part (eh_next e) r else []
  end.
Definition others (h : hdr1) := (h1_type h, h1_teid h, h1_seq h, h1_npdu h, h1_payload h).

Lemma add_exts_spec es : forall t acc, fst (add_exts t acc es) = acc ++ linked_part t es /\
  (snd (add_exts t acc es) = Some 0 <-> linked t es).
Proof.
  induction es as [|e r IH]; intros t acc; cbn [add_exts linked_part linked fst snd].
  - rewrite app_nil_r. split; [reflexivity|]. split; [intros [= ->]; reflexivity|intros ->; reflexivity].
  - destruct (N.eq_dec (eh_type e) t) as [E|E].
    + subst t. rewrite N.eqb_refl. destruct (IH (eh_next e) (acc ++ [e])) as [A B]. split.
      * rewrite A, <- app_assoc. reflexivity.
      * rewrite B. tauto.
    + assert ((t =? eh_type e) = false) as -> by (apply N.eqb_neq; congruence). cbn [fst snd]. split; [now rewrite app_nil_r|].
      split; [discriminate|]. intros [A _]. contradiction.
Qed.
Lemma linked_part_all es : forall t, linked t es -> linked_part t es = es.
Proof.
  induction es as [|e r IH]; intros t; cbn [linked linked_part]; [reflexivity|]. intros [A B].
  destruct (N.eq_dec (eh_type e) t) as [_|D]; [|contradiction]. f_equal. now apply IH.
Qed.

(** AddExtensionHeaders returns an error exactly for lists that are not linked. *)
Theorem C73_add_error_iff : forall h es, snd (h1_add_exts h es) = true <-> ~ well_linked es.
Proof.
  intros h [|e r]; [cbn; split; [discriminate|tauto]|]. unfold h1_add_exts, well_linked.
  destruct (add_exts_spec (e :: r) (eh_type e) (h1_exts h)) as [_ B]. cbn [linked] in B.
  destruct (snd (add_exts (eh_type e) (h1_exts h) (e :: r))) as [[|p]|]; cbn [snd].
  - split; [discriminate|]. intros N. exfalso. apply N. now apply B.
  - split; [|reflexivity]. intros _ L. assert (Some (N.pos p) = Some 0) by (apply B; now split). discriminate.
  - split; [|reflexivity]. intros _ L. assert (None = Some 0) by (apply B; now split). discriminate.
Qed.
(** When it succeeds all of them are appended in order, E is set, the header announces the
    first one and Length is right; nothing else changes. *)
Theorem C73_add_ok : forall h e r, well_linked (e :: r) -> let h' := fst (h1_add_exts h (e :: r)) in
  h1_exts h' = h1_exts h ++ e :: r /\ h1_next h' = eh_type e /\ h1_flags h' = N.lor (h1_flags h) 4 /\
  N.testbit (h1_flags h') 2 = true /\ others h' = others h /\ h1_length h' = N.of_nat (h1_mlen h' - 8) mod 65536.
Proof.
  intros h e r L. cbv zeta. unfold h1_add_exts. destruct (add_exts_spec (e :: r) (eh_type e) (h1_exts h)) as [A B].
  assert (linked (eh_type e) (e :: r)) as K by (split; [reflexivity|exact L]). rewrite (proj2 B K), A, (linked_part_all _ _ K).
  cbn [fst h1_set_length h1_set_len h1_exts h1_next h1_flags h1_length others h1_type h1_teid h1_seq h1_npdu h1_payload].
  repeat (split; [reflexivity|]). split; [rewrite N.lor_spec; now rewrite orb_true_r|]. split; reflexivity.
Qed.
(** When it fails the header is changed all the same: the linked part of the list is
    appended and E set, but Length is what it was.  NewHeaderWithExtensionHeaders,
    WithExtensionHeaders and the T-PDU constructor discard the error. *)
Theorem C73_add_failed : forall h es, snd (h1_add_exts h es) = true ->
  exists e r, es = e :: r /\ let h' := h1_with_exts h es in
  h1_exts h' = h1_exts h ++ e :: linked_part (eh_next e) r /\ h1_next h' = eh_type e /\ N.testbit (h1_flags h') 2 = true /\
  others h' = others h /\ h1_length h' = h1_length h.
Proof.
  intros h [|e r] H; [discriminate|]. exists e, r. split; [reflexivity|]. cbv zeta. unfold h1_with_exts. revert H. unfold h1_add_exts.
  destruct (add_exts_spec (e :: r) (eh_type e) (h1_exts h)) as [A _]. rewrite A. cbn [linked_part].
  destruct (N.eq_dec (eh_type e) (eh_type e)) as [_|D]; [|contradiction].
  destruct (snd (add_exts (eh_type e) (h1_exts h) (e :: r))) as [[|p]|]; cbn [snd fst]; [discriminate| |]; intros _;
    cbn [h1_exts h1_next h1_flags others h1_type h1_teid h1_seq h1_npdu h1_payload h1_length];
    (split; [reflexivity|]; split; [reflexivity|]; split; [rewrite N.lor_spec; now rewrite orb_true_r|]; now split).
Qed.
(** Adding no extension headers changes nothing and is no error. *)
Theorem C73_add_none : forall h, h1_add_exts h [] = (h, false).
Proof. reflexivity. Qed.
(** A header whose constructor discarded the error is marshalled without complaint, with the
    Length it had before the extension headers; its receiver rejects it. *)
Theorem C73_discarded_error_refuted : exists e w h', eh_ok e /\ ~ well_linked [e] /\
  h1_marshal (new_hdr1_exts 48 255 1 0 [69; 0; 1; 2; 3; 4; 5; 6; 7; 8] [e]) = Ok w /\ len w = 26%nat /\
  h1_parse w = Err ETooShortToParse /\
  h' = h1_with_exts (new_hdr1 48 255 1 0 [69; 0; 1; 2; 3; 4; 5; 6; 7; 8]) [e] /\ h1_length h' = 10.
Proof.
  exists (new_ext1 133 [9; 9] 64). eexists. eexists. split; [apply new_ext1_ok; try reflexivity; [repeat constructor|cbn; lia]|].
  split; [cbn; discriminate|]. split; [vm_compute; reflexivity|]. split; [reflexivity|]. split; [vm_compute; reflexivity|]. split; reflexivity.
Qed.
(** A list may be linked through the type 0, which is reserved for "no more": the call
    succeeds, and the receiver takes the rest of the extension headers for payload. *)
Theorem C73_zero_type_refuted : exists es w h', Forall eh_ok es /\ well_linked es /\ len (map eh_type es) = 2%nat /\
  h1_marshal (fst (h1_add_exts (new_hdr1 48 255 1 0 [69; 0]) es)) = Ok w /\ h1_parse w = Ok h' /\
  len (map eh_type (h1_exts h')) = 1%nat /\ h1_payload h' = [1; 8; 8; 0; 69; 0].
Proof.
  exists [new_ext1 133 [9; 9] 0; new_ext1 0 [8; 8] 0]. eexists. eexists. split.
  { repeat (apply Forall_cons; [apply new_ext1_ok; try reflexivity; [repeat constructor|cbn; lia]|]). constructor. }
  split; [now vm_compute|]. split; [reflexivity|]. split; [vm_compute; reflexivity|]. split; [vm_compute; reflexivity|]. split; reflexivity.
Qed.
(** Apart from that type, the lists AddExtensionHeaders accepts are exactly the chains a
    receiver reads back. *)
Theorem C73_linked_chain : forall es t, Forall (fun e => eh_type e <> 0) es ->
  (linked t es <-> eh_chain t es).
Proof.
  induction es as [|e r IH]; intros t F; [reflexivity|]. inversion F as [|? ? A B]; subst. cbn [linked eh_chain]. rewrite (IH _ B).
  split; [intros [<- L]; auto|intros (_ & E & L); auto].
Qed.
Example C73_example : let e := new_ext1 64 [9; 9] 133 in let f := new_ext1 133 [1; 2; 3; 4; 5; 6] 0 in
  well_linked [e; f] /\ ~ well_linked [f; e] /\ ~ well_linked [e] /\
  h1_length (h1_with_exts (new_hdr1 48 255 1 0 [69; 0]) [e; f]) = 18.
Proof. cbv zeta. split; [now vm_compute|]. split; [vm_compute; intros [A _]; discriminate|]. split; [vm_compute; discriminate|reflexivity]. Qed.

(** IsComprehensionRequired is the most significant bit of the type (TS 29.281 5.2.1, figure
    5.2.1-2: 00 and 01 not required, 10 and 11 required). *)
Theorem C73_comprehension : forall e, eh_type e < 256 ->
  eh_comprehension e = N.testbit (eh_type e) 7 /\ (eh_comprehension e = true <-> 128 <= eh_type e).
Proof.
  intros e L. unfold eh_comprehension.
  assert (forallb (fun t => Bool.eqb (N.shiftr t 7 =? 1) (N.testbit t 7) && Bool.eqb (N.shiftr t 7 =? 1) (128 <=? t)) all_bytes = true) as K
    by (vm_compute; reflexivity).
  pose proof (byte_sweep _ K _ L) as Q. cbv beta in Q. apply andb_prop in Q as [A B]. apply Bool.eqb_prop in A, B. split; [exact A|].
  rewrite B. apply N.leb_le.
Qed.
(** the named types that require comprehension, and that no two names share a type *)
Theorem C73_types_told_apart : NoDup (map snd ext_types) /\
  map fst (filter (fun p => eh_comprehension (new_ext1 (snd p) [] 0)) ext_types) =
    ["RANContainer"; "LongPDCPPDUNumberRequired"; "XwRANContainer"; "NRRANContainer"; "PDUSessionContainer";
     "PDCPPDUNumber"; "SuspendRequest"; "SuspendResponse"].
Proof.
  split; [|reflexivity]. repeat (constructor; [cbn; intuition discriminate|]). constructor.
Qed.

Print Assumptions C73_add_error_iff.
Print Assumptions C73_add_ok.
Print Assumptions C73_add_failed.
Print Assumptions C73_add_none.
Print Assumptions C73_discarded_error_refuted.
Print Assumptions C73_zero_type_refuted.
Print Assumptions C73_linked_chain.
Print Assumptions C73_comprehension.
Print Assumptions C73_types_told_apart.
