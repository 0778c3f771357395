(** C72: what IEs, headers and messages print tells what they hold. *)
From Coq Require Import String Ascii Lia.
From Verif Require Import Base BaseLemmas V2IE TvIE V2Header V1Header V0Header V1HeaderSpec V0HeaderSpec V2HeaderProofs V1HeaderProofs V0HeaderProofs
  MsgModel GenericMsg Msgs2Gen Msgs1Gen V2Msg V1Msg V0Msg V2MsgProofs V1MsgProofs V0MsgProofs MsgSelf IENames Print PrintSpec PrintProofs.
Open Scope string_scope.
Open Scope N_scope.
Open Scope list_scope.

(** parsing looks at the datagram only to read the header *)
Lemma same_parsed {I H} (io : ieops I) (ho : hdops H) d b b' m m' : msg_parse io ho d b = Ok m -> msg_parse io ho d b' = Ok m' ->
  m_hdr m = m_hdr m' -> m = m'.
Proof.
  assert (K : forall b m, msg_parse io ho d b = Ok m -> exists F, (forall h, F h = match
      (if (len (ho_payload ho h) <? md_min d)%nat then Ok (Msg h (fempty d)) else
       match io_multi io (ho_payload ho h) with
       | Ok ies => do fs <- run_table io (md_unm d) (map Some ies) (fempty d); Ok (Msg h fs)
       | Err ETooShortToParse => if md_soft d then Ok (Msg h (fempty d)) else Err ETooShortToParse
       | Err e => Err e
       | Panic => Panic
       end) with Ok x => Some x | _ => None end) /\ F (m_hdr m) = Some m).
  { clear b b' m m'. intros b m E. eexists. split; [intros h; reflexivity|]. cbv beta. unfold msg_parse in E.
    destruct (ho_parse ho b) as [h| |]; cbn [bind] in E; try discriminate.
    assert (Hh : m_hdr m = h).
    { destruct (len (ho_payload ho h) <? md_min d)%nat; [injection E as <-; reflexivity|].
      destruct (io_multi io (ho_payload ho h)) as [ies|e|]; [|destruct e; try discriminate; destruct (md_soft d); [injection E as <-; reflexivity|discriminate]|discriminate].
      destruct (run_table io (md_unm d) (map Some ies) (fempty d)); [injection E as <-; reflexivity|discriminate|discriminate]. }
    rewrite Hh, E. reflexivity. }
  intros P P' E. destruct (K b m P) as (F & HF & A). destruct (K b' m' P') as (F' & HF' & A'). rewrite HF in A. rewrite HF' in A'. rewrite E in A.
  rewrite A in A'. now injection A'.
Qed.

(** ** IEs: String shows type, length, instance and payload *)
Theorem C72_v2_ie : forall z z' i j, ie_string2 z i = ie_string2 z' j -> same_values i j.
Proof. intros z z' i j H. apply (ie2_cut z z' i j "" ""). now rewrite H. Qed.
Theorem C72_v1_ie : forall z z' i j, ie_string1 ie_name1 z i = ie_string1 ie_name1 z' j -> i = j.
Proof. intros z z' i j H. apply (ie1_cut ie_name1 z z' i j "" ""); [apply names1_ok|now rewrite H]. Qed.
Theorem C72_v0_ie : forall z z' i j, ie_string1 ie_name0 z i = ie_string1 ie_name0 z' j -> i = j.
Proof. intros z z' i j H. apply (ie1_cut ie_name0 z z' i j "" ""); [apply names0_ok|now rewrite H]. Qed.
Example C72_ie_printed :
  ie_string2 false (IE2 87 9 1 [138; 1; 2; 3; 4; 10; 0; 0; 1] []) =
    "{FullyQualifiedTEID: {Type: 87, Length: 9, Instance: 0x1, Payload: []byte{0x8a, 0x1, 0x2, 0x3, 0x4, 0xa, 0x0, 0x0, 0x1}}}" /\
  ie_string1 ie_name1 true (IE1 132 0 []) = "{ProtocolConfigurationOptions: {Type: 132, Length: 0, Payload: []byte(nil)}}".
Proof. split; vm_compute; reflexivity. Qed.

(** ** Headers: String shows every field *)
Theorem C72_v2_header : forall z z' h k, hdr_string2 z h = hdr_string2 z' k -> h = k.
Proof. intros z z' h k H. rewrite !open2_string in H. now apply open2_cut in H. Qed.
Theorem C72_v1_header : forall z z' h k, Forall (fun e => bytes_ok (eh_content e)) (h1_exts h) -> Forall (fun e => bytes_ok (eh_content e)) (h1_exts k) ->
  hdr_string1 z h = hdr_string1 z' k -> h = k.
Proof. intros z z' h k Hh Hk H. rewrite !open1_string in H. now apply open1_cut in H. Qed.
Theorem C72_v0_header : forall z z' h k, hdr_string0 z h = hdr_string0 z' k -> h = k.
Proof. intros z z' h k H. rewrite !open0_string in H. now apply open0_cut in H. Qed.
Example C72_header_printed :
  hdr_string2 true (Hdr2 72 32 8 4660 1 0 []) =
    "{Flags: 0x48, Type: 32, Length: 8, TEID: 0x1234, SequenceNumber: 0x1, Spare: 0, Payload: []byte(nil)}" /\
  hdr_string1 false (Hdr1 52 255 10 17 1 0 133 [Ext1 133 1 [1; 2] 192; Ext1 192 1 [10; 16] 0] [69]) =
    ("{Flags: 0x34, Type: 0xff, Length: 10, TEID: 0x00000011, SequenceNumber: 0x0001, NPDUNumber: 0x0, ExtensionHeaderType: 0x85, " ++
     "ExtensionHeaders: [{Type: 0x85, Length: 1, Content: 0x0102, NextType: c0} {Type: 0xc0, Length: 1, Content: 0x0a10, NextType: 0}], Payload: []byte{0x45}}")%string.
Proof. split; vm_compute; reflexivity. Qed.

(** ** Messages.  A field of several IEs shows each; a field of one IE shows it or, for a grouped
    one of GTPv2, its members. *)
Theorem C72_v2_prettify : forall g d zh z zh' z' m m', h2_type (m_hdr m) < 256 -> h2_type (m_hdr m') < 256 ->
  prettify2 g zh z d m = prettify2 g zh' z' d m' ->
  m_hdr m = m_hdr m' /\
  Forall (fun f => let l := fget (m_fs m) (fst f) in let l' := fget (m_fs m') (fst f) in
    match snd f with
    | FSingle => same_opt (same_shown g) (hd None l) (hd None l')
    | FList => Forall2 (same_opt same_values) l l'
    end) (md_fields d).
Proof.
  intros g d zh z zh' z' m m' Ht Ht' H. unfold prettify2 in H.
  eapply pretty_cut in H; [|apply open2_string|apply open2_string|apply name_ok; [exact msgs2_ok|assumption]..].
  apply open2_cut in H as [Hh H]. split; [exact Hh|]. apply app_s_inv in H.
  apply (fields_cut same_values ie_string2) with (R1 := same_shown g) in H.
  - exact (proj1 H).
  - intros; eapply ie2_cut; eassumption.
  - apply ie2_brace.
  - intros; eapply one2_cut; eassumption.
Qed.
Lemma opt_eq {A} (l l' : list (option A)) : Forall2 (same_opt eq) l l' -> l = l'.
Proof. induction 1 as [|a b l l' E _ IH]; [reflexivity|]. f_equal; [|exact IH]. destruct a, b; cbn in E; congruence || contradiction. Qed.
Lemma fields1_cut nm fs (m m' : list (string * list (option ie1))) z z' x y : (forall t, lacks ":" (nm t) = true) ->
  (String.concat ", " (pretty_fields (pretty_ie1 nm) (ie_string1 nm) fs z m) ++ String "]" x =
   String.concat ", " (pretty_fields (pretty_ie1 nm) (ie_string1 nm) fs z' m') ++ String "]" y)%string ->
  Forall (fun f => match snd f with FSingle => hd None (fget m (fst f)) = hd None (fget m' (fst f)) | FList => fget m (fst f) = fget m' (fst f) end) fs.
Proof.
  intros Hn H. apply (fields_cut eq (ie_string1 nm)) with (R1 := eq) in H.
  - destruct H as [H _]. eapply Forall_impl; [|exact H]. intros [f k] Hf. cbn [fst snd] in *. destruct k; cbn in Hf.
    + destruct (hd None (fget m f)), (hd None (fget m' f)); cbn in Hf; congruence || contradiction.
    + now apply opt_eq.
  - intros; eapply ie1_cut; eassumption.
  - apply ie1_brace.
  - intros; eapply one1_cut; eassumption.
Qed.
Theorem C72_v1_prettify : forall d zh z zh' z' m m', h1_type (m_hdr m) < 256 -> h1_type (m_hdr m') < 256 ->
  Forall (fun e => bytes_ok (eh_content e)) (h1_exts (m_hdr m)) -> Forall (fun e => bytes_ok (eh_content e)) (h1_exts (m_hdr m')) ->
  prettify1 zh z (P1 d m) = prettify1 zh' z' (P1 d m') ->
  m_hdr m = m_hdr m' /\
  Forall (fun f => let l := fget (m_fs m) (fst f) in let l' := fget (m_fs m') (fst f) in
    match snd f with FSingle => hd None l = hd None l' | FList => l = l' end) (md_fields d).
Proof.
  intros d zh z zh' z' m m' Ht Ht' He He' H. unfold prettify1 in H.
  eapply pretty_cut in H; [|apply open1_string|apply open1_string|apply name_ok; [exact msgs1_ok|assumption]..].
  apply open1_cut in H as [Hh H]; [|assumption..]. split; [exact Hh|]. apply app_s_inv in H. eapply fields1_cut; [apply names1_ok|exact H].
Qed.
Theorem C72_v0_prettify : forall d zh z zh' z' m m', h0_type (m_hdr m) < 256 -> h0_type (m_hdr m') < 256 ->
  prettify0 zh z (P0 d m) = prettify0 zh' z' (P0 d m') ->
  m_hdr m = m_hdr m' /\
  Forall (fun f => let l := fget (m_fs m) (fst f) in let l' := fget (m_fs m') (fst f) in
    match snd f with FSingle => hd None l = hd None l' | FList => l = l' end) (md_fields d).
Proof.
  intros d zh z zh' z' m m' Ht Ht' H. unfold prettify0 in H.
  eapply pretty_cut in H; [|apply open0_string|apply open0_string|apply name_ok; [exact msgs0_ok|assumption]..].
  apply open0_cut in H as [Hh H]. split; [exact Hh|]. apply app_s_inv in H. eapply fields1_cut; [apply names0_ok|exact H].
Qed.
Example C72_message_printed :
  match v2_parse default_grouped [72; 66; 0; 22; 0; 0; 0; 1; 0; 0; 1; 0; 93; 0; 5; 0; 73; 0; 1; 0; 5; 3; 0; 1; 0; 9] with
  | Ok (d, m) => prettify2 default_grouped true (fun _ _ => true) d m
  | _ => "" end =
  ("{Delete Bearer Command: {Flags: 0x48, Type: 66, Length: 22, TEID: 0x1, SequenceNumber: 0x1, Spare: 0, Payload: " ++
   "[]byte{0x5d, 0x0, 0x5, 0x0, 0x49, 0x0, 0x1, 0x0, 0x5, 0x3, 0x0, 0x1, 0x0, 0x9}, IEs: [" ++
   "{BearerContexts: [{BearerContext: {Type: 93, Length: 5, Instance: 0x0, Payload: []byte{0x49, 0x0, 0x1, 0x0, 0x5}}}]}, " ++
   "{ULI: nil}, {ULITimestamp: nil}, {UETimeZone: nil}, {MMESGSNOverloadControlInformation: nil}, " ++
   "{SGWOverloadControlInformation: nil}, {SenderFTEIDC: nil}, {SecondaryRATDataUsageReport: []}, {PrivateExtension: nil}, " ++
   "{AdditionalIEs: [{Recovery: {Type: 3, Length: 1, Instance: 0x0, Payload: []byte{0x9}}}]}]}")%string.
Proof. vm_compute. reflexivity. Qed.

(** Two received messages that print alike are equal, whatever their types: the header shows the
    octets they were parsed from. *)
Theorem C72_v2_parsed : forall g b b' d m d' m' zh z zh' z', bytes_ok b -> bytes_ok b' ->
  v2_parse g b = Ok (d, m) -> v2_parse g b' = Ok (d', m') -> prettify2 g zh z d m = prettify2 g zh' z' d' m' -> d = d' /\ m = m'.
Proof.
  intros g b b' d m d' m' zh z zh' z' Hb Hb' P P' H.
  destruct (v2_parse_parts g b d m P) as (t & It & -> & Et & Q). destruct (v2_parse_parts g b' d' m' P') as (t' & It' & -> & Et' & Q').
  pose proof (idx_byte _ _ _ Hb It) as Ht. pose proof (idx_byte _ _ _ Hb' It') as Ht'. unfold prettify2 in H.
  eapply pretty_cut in H; [|apply open2_string|apply open2_string|apply name_ok; [exact msgs2_ok|rewrite ?Et, ?Et'; assumption]..].
  apply open2_cut in H as [Hh _]. assert (E : t = t') by (rewrite <- Et, <- Et', Hh; reflexivity). subst t'. rewrite E in *. split; [reflexivity|].
  eapply same_parsed; eassumption.
Qed.

Lemma parsed_exts b h : bytes_ok b -> h1_parse b = Ok h -> exts_bytes h /\ h1_type h < 256.
Proof.
  intros Hb H. destruct (h1_parse_inv b h Hb H) as (Ho & _ & _ & _ & Hk & _). split; [|apply Ho]. unfold exts_bytes.
  destruct (N.testbit (h1_flags h) 2) eqn:E.
  - destruct (h1o_exts h Ho E) as [F _]. eapply Forall_impl; [|exact F]. intros e He. apply He.
  - rewrite <- Hk. unfold h1_known. rewrite E. constructor.
Qed.
Definition text1 (zh : bool) (z : nat -> nat -> bool) (p : pdu1) : list string :=
  match p with P1 d m => pretty_fields (pretty_ie1 ie_name1) (ie_string1 ie_name1) (md_fields d) z (m_fs m) | P1_tpdu _ => [] end.
Lemma prettify1_parts zh z p : prettify1 zh z p =
  pretty (name_of names1 (pdu1_name p) (h1_type (pdu1_hdr p))) (hdr_string1 zh (pdu1_hdr p)) (text1 zh z p).
Proof. destruct p; reflexivity. Qed.
Theorem C72_v1_parsed : forall b b' p p' zh z zh' z', bytes_ok b -> bytes_ok b' ->
  v1_parse b = Ok p -> v1_parse b' = Ok p' -> prettify1 zh z p = prettify1 zh' z' p' -> p = p'.
Proof.
  intros b b' p p' zh z zh' z' Hb Hb' P P' H.
  destruct (v1_parse_parts b p Hb P) as (t & It & Et & Hp & Hn & Q). destruct (v1_parse_parts b' p' Hb' P') as (t' & It' & Et' & Hp' & Hn' & Q').
  destruct (parsed_exts _ _ Hb Hp) as [X T]. destruct (parsed_exts _ _ Hb' Hp') as [X' T']. rewrite !prettify1_parts in H.
  eapply pretty_cut in H; [|apply open1_string|apply open1_string|apply name_ok; [exact msgs1_ok|assumption]..].
  apply open1_cut in H as [Hh _]; [|assumption..]. assert (E : t' = t) by (rewrite <- Et, <- Et', Hh; reflexivity). subst t'. rewrite E in *.
  unfold v1_parse in P, P'. destruct (len b <? 2)%nat; [discriminate|]. destruct (len b' <? 2)%nat; [discriminate|]. rewrite It in P. rewrite It' in P'. cbn [bind] in P, P'.
  destruct (struct1 t) as [d|].
  - apply bind_ok_inv in P. destruct P as (m & Pm & P). injection P as <-. apply bind_ok_inv in P'. destruct P' as (m' & Pm' & P'). injection P' as <-.
    cbn [pdu1_hdr] in Hh. f_equal. eapply same_parsed; eassumption.
  - apply bind_ok_inv in P. destruct P as (h & Ph & P). injection P as <-. apply bind_ok_inv in P'. destruct P' as (h' & Ph' & P'). injection P' as <-.
    cbn [pdu1_hdr] in Hh. now f_equal.
Qed.
Definition text0 (zh : bool) (z : nat -> nat -> bool) (p : pdu0) : list string :=
  match p with P0 d m => pretty_fields (pretty_ie1 ie_name0) (ie_string1 ie_name0) (md_fields d) z (m_fs m) | P0_tpdu _ => [] end.
Lemma prettify0_parts zh z p : prettify0 zh z p =
  pretty (name_of names0 (pdu0_name p) (h0_type (pdu0_hdr p))) (hdr_string0 zh (pdu0_hdr p)) (text0 zh z p).
Proof. destruct p; reflexivity. Qed.
Theorem C72_v0_parsed : forall b b' p p' zh z zh' z', bytes_ok b -> bytes_ok b' ->
  v0_parse b = Ok p -> v0_parse b' = Ok p' -> prettify0 zh z p = prettify0 zh' z' p' -> p = p'.
Proof.
  intros b b' p p' zh z zh' z' Hb Hb' P P' H.
  destruct (v0_parse_parts b p Hb P) as (t & It & Et & Hp & Hn & Q). destruct (v0_parse_parts b' p' Hb' P') as (t' & It' & Et' & Hp' & Hn' & Q').
  assert (T : h0_type (pdu0_hdr p) < 256) by (apply (proj1 (h0_parse_inv _ _ Hb Hp))). assert (T' : h0_type (pdu0_hdr p') < 256) by (apply (proj1 (h0_parse_inv _ _ Hb' Hp'))).
  rewrite !prettify0_parts in H.
  eapply pretty_cut in H; [|apply open0_string|apply open0_string|apply name_ok; [exact msgs0_ok|assumption]..].
  apply open0_cut in H as [Hh _]. assert (E : t' = t) by (rewrite <- Et, <- Et', Hh; reflexivity). subst t'. rewrite E in *.
  unfold v0_parse in P, P'. destruct (len b <? 2)%nat; [discriminate|]. destruct (len b' <? 2)%nat; [discriminate|]. rewrite It in P. rewrite It' in P'. cbn [bind] in P, P'.
  destruct (struct0 t) as [d|].
  - apply bind_ok_inv in P. destruct P as (m & Pm & P). injection P as <-. apply bind_ok_inv in P'. destruct P' as (m' & Pm' & P'). injection P' as <-.
    cbn [pdu0_hdr] in Hh. f_equal. eapply same_parsed; eassumption.
  - apply bind_ok_inv in P. destruct P as (h & Ph & P). injection P as <-. apply bind_ok_inv in P'. destruct P' as (h' & Ph' & P'). injection P' as <-.
    cbn [pdu0_hdr] in Hh. now f_equal.
Qed.
(** Two datagrams with different payloads. *)
Example C72_parsed_differ :
  match v1_parse [48; 255; 0; 1; 0; 0; 0; 7; 69], v1_parse [48; 255; 0; 1; 0; 0; 0; 7; 70] with
  | Ok p, Ok p' => (prettify1 true (fun _ _ => true) p, String.eqb (prettify1 true (fun _ _ => true) p) (prettify1 true (fun _ _ => true) p'))
  | _, _ => ("", true) end =
  ("{T-PDU: {Flags: 0x30, Type: 0xff, Length: 1, TEID: 0x00000007, SequenceNumber: 0x0000, NPDUNumber: 0x0, ExtensionHeaderType: 0x0, ExtensionHeaders: [], Payload: []byte{0x45}, IEs: []}", false).
Proof. vm_compute. reflexivity. Qed.

(** Prettify does not show the type, the instance, the length and the payload of a grouped IE. *)
Theorem C72_v2_grouped_refuted : forall zh z h t l n p t' l' n' p' c, default_grouped t = true -> default_grouped t' = true ->
  prettify2 default_grouped zh z d_DeleteBearerRequest (Msg h [("PGWOverloadControlInformation", [Some (IE2 t l n p c)])]) =
  prettify2 default_grouped zh z d_DeleteBearerRequest (Msg h [("PGWOverloadControlInformation", [Some (IE2 t' l' n' p' c)])]).
Proof.
  intros zh z h t l n p t' l' n' p' c Ht Ht'. unfold prettify2. cbn [m_hdr m_fs]. f_equal.
  unfold d_DeleteBearerRequest. cbn [md_fields pretty_fields fget String.eqb Ascii.eqb Bool.eqb pretty_field hd].
  unfold pretty_ie2. cbn [i2_type i2_children]. rewrite Ht, Ht'. reflexivity.
Qed.

(** ** Names of IEs *)
(** GTPv2: the name of a type is that of its constant, except for two; a type without a constant
    has none, except for two. *)
Theorem C72_v2_names_partial : forall t, t < 256 ->
  (forall c, In (c, t) ie_consts2 -> ~ In c ["PLMNID"; "TargetIdentification"] -> ie_name2 t = c) /\
  ((forall c, ~ In (c, t) ie_consts2) -> ~ In t [122; 130] -> ie_name2 t = "Undefined").
Proof.
  assert (C : forallb (fun p => existsb (String.eqb (fst p)) ["PLMNID"; "TargetIdentification"] || String.eqb (ie_name2 (snd p)) (fst p)) ie_consts2 = true)
    by (vm_compute; reflexivity).
  assert (D : forallb (fun t => existsb (fun p => snd p =? t) ie_consts2 || existsb (N.eqb t) [122; 130] || String.eqb (ie_name2 t) "Undefined") (below 256) = true)
    by (vm_compute; reflexivity).
  intros t Ht. split.
  - intros c Hc Hn. rewrite forallb_forall in C. specialize (C _ Hc). cbn [fst snd] in C. apply orb_prop in C as [C|C]; [|now apply String.eqb_eq].
    apply existsb_exists in C as (x & Hx & E). apply String.eqb_eq in E. subst x. contradiction.
  - intros Hc Hn. rewrite forallb_forall in D. assert (I : In t (below 256)) by (apply below_complete; exact Ht). specialize (D t I).
    apply orb_prop in D as [D|D]; [|now apply String.eqb_eq]. apply orb_prop in D as [D|D].
    + apply existsb_exists in D as ([c u] & Hx & E). apply N.eqb_eq in E. cbn in E. subst u. now destruct (Hc c).
    + apply existsb_exists in D as (x & Hx & E). apply N.eqb_eq in E. subst x. contradiction.
Qed.
(** TS 29.274 table 8.1-1: 120 is the PLMN ID and 121 the Target Identification. *)
Theorem C72_v2_names_refuted : forall c n, In (c, n) misnamed2 -> exists t, In (c, t) ie_consts2 /\ ie_name2 t = n /\ c <> n.
Proof.
  intros c n H. cbn in H. destruct H as [H|[H|[]]]; injection H as <- <-.
  - exists 120. split; [|split; [vm_compute; reflexivity|discriminate]].
    apply (find_some (fun p => snd p =? 120)). vm_compute. reflexivity.
  - exists 121. split; [|split; [vm_compute; reflexivity|discriminate]].
    apply (find_some (fun p => snd p =? 121)). vm_compute. reflexivity.
Qed.
(** GTPv1: types from 128 on have the name of their constants; none below 128 has a name. *)
Theorem C72_v1_names_partial : forall c t, In (c, t) ie_consts1 -> 128 <= t -> ie_name1 t = c.
Proof.
  assert (C : forallb (fun p => (snd p <? 128) || String.eqb (ie_name1 (snd p)) (fst p)) ie_consts1 = true) by (vm_compute; reflexivity).
  intros c t H Ht. rewrite forallb_forall in C. specialize (C _ H). cbn [fst snd] in C. rewrite (proj2 (N.ltb_ge t 128)) in C by exact Ht.
  now apply String.eqb_eq.
Qed.
Theorem C72_v1_names_refuted : forall c t, In (c, t) ie_consts1 -> t < 128 -> ie_name1 t = "Undefined".
Proof.
  assert (C : forallb (fun p => negb (snd p <? 128) || String.eqb (ie_name1 (snd p)) "Undefined") ie_consts1 = true) by (vm_compute; reflexivity).
  intros c t H Ht. rewrite forallb_forall in C. specialize (C _ H). cbn [fst snd] in C. rewrite (proj2 (N.ltb_lt t 128) Ht) in C. now apply String.eqb_eq.
Qed.
Theorem C72_v0_names : forall t, t < 256 -> (forall c, In (c, t) ie_consts0 -> ie_name0 t = c) /\
  ((forall c, ~ In (c, t) ie_consts0) -> ie_name0 t = "Undefined").
Proof.
  assert (C : forallb (fun p => String.eqb (ie_name0 (snd p)) (fst p)) ie_consts0 = true) by (vm_compute; reflexivity).
  assert (D : forallb (fun t => existsb (fun p => snd p =? t) ie_consts0 || String.eqb (ie_name0 t) "Undefined") (below 256) = true)
    by (vm_compute; reflexivity).
  intros t Ht. split.
  - intros c Hc. rewrite forallb_forall in C. specialize (C _ Hc). now apply String.eqb_eq.
  - intros Hc. rewrite forallb_forall in D. assert (I : In t (below 256)) by (apply below_complete; exact Ht). specialize (D t I).
    apply orb_prop in D as [D|D]; [|now apply String.eqb_eq]. apply existsb_exists in D as ([c u] & Hx & E). apply N.eqb_eq in E. cbn in E. subst u. now destruct (Hc c).
Qed.
(** No two types share a name. *)
Fixpoint distinct_b (l : list string) : bool := match l with [] => true | x :: r => negb (existsb (String.eqb x) r) && distinct_b r end.
Lemma in_names_tell l t t' : distinct_b (map snd l) = true -> in_names l t = in_names l t' -> t = t' \/ in_names l t = "Undefined".
Proof.
  intros D E. unfold in_names in *. destruct (find (fun p => fst p =? t) l) as [[u n]|] eqn:F; [|now right].
  destruct (find (fun p => fst p =? t') l) as [[u' n']|] eqn:F'; [|right; exact E]. left. cbn [snd] in E. subst n'.
  apply find_some in F as [I F]. apply find_some in F' as [I' F']. apply N.eqb_eq in F, F'. cbn [fst] in F, F'. subst u u'.
  induction l as [|[v m] l IH]; [destruct I|]. cbn [map snd distinct_b] in D. apply andb_prop in D as [D0 D].
  assert (X : forall w, In (w, m) l -> False).
  { intros w Hw. apply negb_true_iff in D0. assert (Y : existsb (String.eqb m) (map snd l) = true); [|congruence].
    apply existsb_exists. exists m. split; [apply in_map_iff; exists (w, m); auto|apply String.eqb_refl]. }
  destruct I as [I|I]; destruct I' as [I'|I'].
  - congruence.
  - injection I as -> ->. destruct (X _ I').
  - injection I' as -> ->. destruct (X _ I).
  - auto.
Qed.
Theorem C72_names_tell : forall nm, In nm [ie_name2; ie_name1; ie_name0] -> forall t t', nm t = nm t' -> t = t' \/ nm t = "Undefined".
Proof.
  intros nm Hnm t t' E. destruct Hnm as [<-|[<-|[<-|[]]]]; (apply in_names_tell; [vm_compute; reflexivity|exact E]).
Qed.
Example C72_names : ie_name2 87 = "FullyQualifiedTEID" /\ In ("FullyQualifiedTEID", 87) ie_consts2 /\ ie_name1 133 = "GSNAddress" /\ ie_name0 2 = "IMSI".
Proof. repeat split; try (vm_compute; reflexivity). apply (find_some (fun p => snd p =? 87)). vm_compute. reflexivity. Qed.

Print Assumptions C72_v2_ie.
Print Assumptions C72_v1_ie.
Print Assumptions C72_v0_ie.
Print Assumptions C72_v2_header.
Print Assumptions C72_v1_header.
Print Assumptions C72_v0_header.
Print Assumptions C72_v2_prettify.
Print Assumptions C72_v1_prettify.
Print Assumptions C72_v0_prettify.
Print Assumptions C72_v2_parsed.
Print Assumptions C72_v1_parsed.
Print Assumptions C72_v0_parsed.
Print Assumptions C72_v2_grouped_refuted.
Print Assumptions C72_v2_names_partial.
Print Assumptions C72_v2_names_refuted.
Print Assumptions C72_v1_names_partial.
Print Assumptions C72_v1_names_refuted.
Print Assumptions C72_v0_names.
Print Assumptions C72_names_tell.
