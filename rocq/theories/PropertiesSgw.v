(** The example S-GW (ExSgw.v): C76, continued. *)
From Coq Require Import String Lia.
From Verif Require Import Base BaseLemmas Maps MapsProofs Utils UtilsProofs V2IE V2IESpec V2IEProofs V2Header V2HeaderProofs MsgModel MsgSpec MsgProofs MsgProofs2 MsgProofs3 Msgs2Gen V2Msg V2MsgProofs
  V2Codec V2Codec2 V2Ctx CodecSpec CodecSpec4 V2CodecProofs V2CodecProofs2 V2CodecProofs5 V2IdProofs V2AccProofs FieldSpec Properties52 PropertiesBase PropertiesCtx CPlane SessReq SessReqProofs PropertiesReq ExPgw PropertiesEx PropertiesEx2 PropertiesFwd ExSgw.
Open Scope string_scope.
Open Scope N_scope.
Open Scope list_scope.

(** the octets are a message d to TEID t under sequence number n whose one IE, i, is in field f *)
Definition carries (raw : bytes) (d : mdesc) (t n : N) (f : string) (i : ie2) : Prop :=
  exists x, v2_parse g2 raw = Ok (d, x) /\ h2_get_teid (m_hdr x) = t /\ h2_seq (m_hdr x) = n /\
    forall g, fget (m_fs x) g = if String.eqb f g then [Some i] else [].
(** the octets are the message d of fields fs, to TEID t under sequence number n *)
Definition same_to (raw : bytes) (d : mdesc) (t n : N) (fs : @fmap ie2) : Prop :=
  exists x, v2_parse g2 raw = Ok (d, x) /\ h2_get_teid (m_hdr x) = t /\ h2_seq (m_hdr x) = n /\ m_fs x = fs.

Lemma sent_one d a b rt f t n i : In d built2 -> md_ctor d = Ctor 2 a b rt true -> In f (map fst (md_fields d)) ->
  run_act (io2 g2) (assoc_act (t_cases (md_new d)) (t_default (md_new d)) (i2_type i)) i (fempty d) = fset (fempty d) f [Some i] ->
  t < 4294967296 -> n < 16777216 -> wf2 g2 i -> N.of_nat (12 + len (wire2 g2 i)) < 65536 ->
  exists raw, sent_as d t n [Some i] = Ok raw /\ carries raw d t n f i.
Proof.
  intros Hb Hc Hf Hr Ht Hn W L.
  destruct (C64_v2_respond d a b rt t 0 [Some i] (Msg (Hdr2 0 0 0 0 n 0 []) []) Hb Hc Ht) as (r & raw & x & R1 & R2 & _ & _ & R3 & _ & R4 & R5 & R6).
  { apply Forall_cons; [exact W|apply Forall_nil]. } { rewrite <- (app_nil_r (wire2 g2 i)) in L. exact L. } { exact Hn. }
  exists raw. split; [exact R2|]. exists x. split; [exact R3|]. split; [exact R4|]. split; [exact R5|]. intros g.
  destruct (new_shape _ _ _ _ _ _ R1) as (fs & l & F & ->). cbn [m_fs] in R6. cbn [run_table io_type io2] in F. rewrite Hr in F. injection F as <-. rewrite R6.
  destruct (String.eqb f g) eqn:E; [apply String.eqb_eq in E; subst g|apply String.eqb_neq in E].
  - apply fget_fset_eq. unfold keys, fempty. rewrite map_map. exact Hf.
  - rewrite fget_fset_neq by exact E. apply fget_empty.
Qed.

(** an IE of a received message *)
Lemma received_ie b d m f k i : bytes_ok b -> v2_parse g2 b = Ok (d, m) -> In d all_msgs2 -> In (f, k) (md_fields d) -> ~ In (md_name d, f) misplaced_parse2 ->
  In (Some i) (fget (m_fs m) f) -> wf2 g2 i /\ belongs2 (md_name d) (map fst (md_fields d)) f (i2_type i) (i2_instance i) = true /\ (len (wire2 g2 i) + 8 <= len b)%nat.
Proof.
  intros Hb Hp Hd Hf Hm Hi. destruct (v2_parse_parts g2 b _ m Hp) as (t & _ & _ & _ & Ep). unfold v2_parse_as, msg_parse in Ep.
  apply bind_ok_inv in Ep as (h & Eh & H). destruct (v2_laws_hdr b h Hb Eh) as [B O].
  assert (E0 : m = Msg h (fempty d) -> False). { intros ->. cbn [m_fs] in Hi. rewrite fget_empty in Hi. destruct Hi. }
  destruct (_ <? _)%nat; [injection H as <-; elim (E0 eq_refl)|].
  destruct (io_multi (io2 g2) (ho_payload ho2 h)) as [l|e|] eqn:M; [| |discriminate].
  2:{ destruct e; try discriminate. destruct (md_soft d); [|discriminate]. injection H as <-. elim (E0 eq_refl). }
  assert (Hh : m_hdr m = h) by (apply bind_ok_inv in H as (fs & _ & H); injection H as <-; reflexivity).
  pose proof (v2_laws_multi g2 _ _ M B) as W. pose proof (v2_laws_multi' g2 _ _ M B) as P.
  assert (P' : h2_payload (m_hdr m) = flat_map (wire2 g2) l) by (rewrite Hh; exact P).
  rewrite (C52_v2_parse_fields_partial g2 b d m l f k Hp Hd P' W Hf Hm) in Hi. apply in_map_iff in Hi as (j & E & Hi). injection E as ->.
  assert (Q : In i (filter (fun i => belongs2 (md_name d) (map fst (md_fields d)) f (i2_type i) (i2_instance i)) l)).
  { unfold holds2 in Hi. destruct k; [|exact Hi]. unfold latest in Hi. destruct (rev _) as [|y r] eqn:R in Hi; [destruct Hi|]. destruct Hi as [->|[]].
    apply in_rev. rewrite R. left. reflexivity. }
  apply filter_In in Q as [Q1 Q2]. split; [exact (proj1 (Forall_forall _ _) W i Q1)|]. split; [exact Q2|].
  change (ho_parse ho2 b) with (h2_parse b) in Eh. destruct (h2_parse_inv b _ Hb Eh) as (_ & _ & _ & _ & _ & _ & _ & _ & _ & _ & q & Eq).
  assert (L : (len (wire2 g2 i) <= len (flat_map (wire2 g2) l))%nat).
  { clear -Q1. induction l as [|y l IH]; [destruct Q1|]. cbn [flat_map]. rewrite app_length. destruct Q1 as [->|Q]; [lia|specialize (IH Q); lia]. }
  rewrite <- P in L. change (ho_payload ho2 h) with (h2_payload h) in L. rewrite Eq, app_length, h2_wire_len. unfold h2_mlen. destruct (h2_has_teid h); lia.
Qed.

Lemma dsreq_all : In d_DeleteSessionRequest all_msgs2.
Proof. unfold all_msgs2. repeat first [left; reflexivity|right]. Qed.
Lemma dsreq_built : In d_DeleteSessionRequest built2.
Proof. unfold built2. rewrite filter_In. split; [exact dsreq_all|vm_compute; reflexivity]. Qed.
Lemma dbreq_all : In d_DeleteBearerRequest all_msgs2.
Proof. unfold all_msgs2. repeat first [left; reflexivity|right]. Qed.
Lemma dbreq_built : In d_DeleteBearerRequest built2.
Proof. unfold built2. rewrite filter_In. split; [exact dbreq_all|vm_compute; reflexivity]. Qed.
Lemma dbrsp_all : In d_DeleteBearerResponse all_msgs2.
Proof. unfold all_msgs2. repeat first [left; reflexivity|right]. Qed.
Lemma dbrsp_built : In d_DeleteBearerResponse built2.
Proof. unfold built2. rewrite filter_In. split; [exact dbrsp_all|vm_compute; reflexivity]. Qed.

(** a Cause alone in a message that has a field for it *)
Lemma cause_facts c off : c < 256 -> (forall t, off = Some t -> t < 256) -> let i := new_cause g2 c 0 0 0 off in
  wf2 g2 i /\ i2_type i = 2 /\ acc_cause g2 i = Ok c /\ N.of_nat (12 + len (wire2 g2 i)) < 65536.
Proof.
  intros Hc Ho i. unfold i. destruct off as [t|]; (split; [apply wf2_plain; try reflexivity; try lia|split; [reflexivity|split; [reflexivity|reflexivity]]]).
  - specialize (Ho t eq_refl). repeat (apply Forall_cons; [assumption || reflexivity|]). apply Forall_nil.
  - repeat (apply Forall_cons; [assumption || reflexivity|]). apply Forall_nil.
Qed.
Lemma ebi_facts e : let i := new_ebi g2 e in
  wf2 g2 i /\ i2_type i = 73 /\ acc_ebi g2 i = Ok (e mod 16) /\ N.of_nat (12 + len (wire2 g2 i)) < 65536.
Proof.
  intros i. unfold i, new_ebi. assert (He : N.land e 15 = e mod 16) by (change 15 with (N.ones 4); apply N.land_ones). rewrite He.
  pose proof (N.mod_lt e 16 ltac:(lia)). split; [apply wf2_plain; try reflexivity; try lia; constructor; [change (e mod 16 < 256); lia|constructor]|]. repeat split.
Qed.
Lemma act_of (t : table) ty i (d : mdesc) f : i2_type i = ty -> assoc_act (t_cases t) (t_default t) ty = ASet f ->
  run_act (io2 g2) (assoc_act (t_cases t) (t_default t) (i2_type i)) i (fempty d) = fset (fempty d) f [Some i].
Proof. intros -> ->. reflexivity. Qed.

Lemma send_dsreq e t n : t < 4294967296 -> n < 16777216 -> exists raw, sent_as d_DeleteSessionRequest t n [Some (new_ebi g2 e)] = Ok raw /\ carries raw d_DeleteSessionRequest t n "LinkedEBI" (new_ebi g2 e).
Proof.
  intros Ht Hn. destruct (ebi_facts e) as (W & T & _ & L). generalize dependent (new_ebi g2 e). intros i W T L.
  eapply sent_one; try eassumption; [exact dsreq_built|reflexivity|vm_compute; tauto|eapply act_of; [exact T|vm_compute; reflexivity]].
Qed.
Lemma send_dsrsp c t n : c < 256 -> t < 4294967296 -> n < 16777216 -> exists raw, sent_as d_DeleteSessionResponse t n [Some (new_cause g2 c 0 0 0 None)] = Ok raw /\ carries raw d_DeleteSessionResponse t n "Cause" (new_cause g2 c 0 0 0 None).
Proof.
  intros Hc Ht Hn. destruct (cause_facts c None Hc) as (W & T & _ & L); [discriminate|]. generalize dependent (new_cause g2 c 0 0 0 None). intros i W T L.
  eapply sent_one; try eassumption; [exact dsrsp_built|reflexivity|vm_compute; tauto|eapply act_of; [exact T|vm_compute; reflexivity]].
Qed.
Lemma send_dbrsp c off t n : c < 256 -> (forall x, off = Some x -> x < 256) -> t < 4294967296 -> n < 16777216 -> exists raw, sent_as d_DeleteBearerResponse t n [Some (new_cause g2 c 0 0 0 off)] = Ok raw /\ carries raw d_DeleteBearerResponse t n "Cause" (new_cause g2 c 0 0 0 off).
Proof.
  intros Hc Ho Ht Hn. destruct (cause_facts c off Hc Ho) as (W & T & _ & L). generalize dependent (new_cause g2 c 0 0 0 off). intros i W T L.
  eapply sent_one; try eassumption; [exact dbrsp_built|reflexivity|vm_compute; tauto|eapply act_of; [exact T|vm_compute; reflexivity]].
Qed.
Lemma dbreq_case i : i2_type i = 73 -> assoc_act (t_cases (md_new d_DeleteBearerRequest)) (t_default (md_new d_DeleteBearerRequest)) (i2_type i) =
  AInst [(0, ASet "LinkedEBI"); (1, AApp "EBIs")] (AApp "AdditionalIEs").
Proof. intros ->. vm_compute. reflexivity. Qed.
(** an EBI received in a Delete Bearer Request *)
Lemma dbreq_ebi b m f k i : bytes_ok b -> v2_parse g2 b = Ok (d_DeleteBearerRequest, m) ->
  In (f, k) [("LinkedEBI", FSingle); ("EBIs", FList)] -> In (Some i) (fget (m_fs m) f) ->
  In (f, k) (md_fields d_DeleteBearerRequest) /\ wf2 g2 i /\ i2_type i = 73 /\ i2_instance i = (if String.eqb f "LinkedEBI" then 0 else 1) /\ (len (wire2 g2 i) + 8 <= len b)%nat.
Proof.
  intros Hb Hp Hf E.
  assert (F1 : In (f, k) (md_fields d_DeleteBearerRequest)) by (destruct Hf as [X|[X|[]]]; injection X as <- <-; vm_compute; tauto).
  assert (F2 : ~ In (md_name d_DeleteBearerRequest, f) misplaced_parse2).
  { intros X. apply (in_map (fun x => (fst x =? "DeleteBearerRequest")%string && ((snd x =? "LinkedEBI")%string || (snd x =? "EBIs")%string))) in X.
    assert (Y : forallb negb (map (fun x => (fst x =? "DeleteBearerRequest")%string && ((snd x =? "LinkedEBI")%string || (snd x =? "EBIs")%string)) misplaced_parse2) = true) by (vm_compute; reflexivity).
    rewrite forallb_forall in Y. specialize (Y _ X). destruct Hf as [Z|[Z|[]]]; injection Z as <- <-; discriminate Y. }
  destruct (received_ie b _ m f k i Hb Hp dbreq_all F1 F2) as (W & B & L);[exact E|].
  assert (TI : i2_type i = 73 /\ i2_instance i = if String.eqb f "LinkedEBI" then 0 else 1).
  { assert (A0 : types_for v2_field_types "LinkedEBI" = [73] /\ types_for v2_field_types "EBIs" = [73] /\
      instance_for "DeleteBearerRequest" "LinkedEBI" = Some 0 /\ instance_for "DeleteBearerRequest" "EBIs" = Some 1) by (vm_compute; repeat split).
    destruct A0 as (A1 & A2 & A3 & A4). change (md_name d_DeleteBearerRequest) with "DeleteBearerRequest" in B.
    destruct Hf as [Z|[Z|[]]]; injection Z as <- <-; cbv [String.eqb Ascii.eqb Bool.eqb] in *; unfold belongs2 in B;
      [change (named2 "DeleteBearerRequest" "LinkedEBI" (i2_type i) (i2_instance i) = true) in B|change (named2 "DeleteBearerRequest" "EBIs" (i2_type i) (i2_instance i) = true) in B];
      unfold named2 in B; [rewrite A1, A3 in B|rewrite A2, A4 in B]; cbn [existsb] in B; rewrite Bool.orb_false_r in B;
      apply andb_prop in B as [B1 B2]; apply N.eqb_eq in B1, B2; split; assumption. }
  destruct TI as [T I]. split; [exact F1|]. split; [exact W|]. split; [exact T|]. split; [exact I|exact L].
Qed.
Lemma ebis_type b m i : bytes_ok b -> v2_parse g2 b = Ok (d_DeleteBearerRequest, m) -> In (Some i) (fget (m_fs m) "EBIs") -> i2_type i = 73.
Proof. intros Hb Hp Hi. eapply (dbreq_ebi b m "EBIs" FList i Hb Hp); [cbn [In]; tauto|exact Hi]. Qed.
(** ... and sent in another one stands in the same field *)
Lemma send_dbreq b m f k i r t n : bytes_ok b -> N.of_nat (len b) + 4 < 65536 -> v2_parse g2 b = Ok (d_DeleteBearerRequest, m) ->
  In (f, k) [("LinkedEBI", FSingle); ("EBIs", FList)] -> fget (m_fs m) f = Some i :: r ->
  t < 4294967296 -> n < 16777216 -> exists raw, sent_as d_DeleteBearerRequest t n [Some i] = Ok raw /\ carries raw d_DeleteBearerRequest t n f i.
Proof.
  intros Hb Hl Hp Hf E Ht Hn. destruct (dbreq_ebi b m f k i Hb Hp Hf) as (F1 & W & T & I & L); [rewrite E; left; reflexivity|].
  eapply sent_one; try eassumption; [exact dbreq_built|reflexivity|apply in_map_iff; exists (f, k); split; [reflexivity|exact F1]| |lia].
  rewrite (dbreq_case i T). cbn [run_act io_inst io2]. rewrite I. destruct Hf as [Z|[Z|[]]]; injection Z as <- <-; reflexivity.
Qed.

(** ** Delete Session Request from the MME *)
Theorem C76_sgw_delete : forall b m a s p t ebi q, bytes_ok b -> v2_parse g2 b = Ok (d_DeleteSessionRequest, m) ->
  aget (s_teids s) 7 = Some p -> aget (s_teids a) 10 = Some t -> p < 4294967296 -> t < 4294967296 -> q < 16777216 ->
  exists ask, carries ask d_DeleteSessionRequest p q "LinkedEBI" (new_ebi g2 ebi) /\ acc_ebi g2 (new_ebi g2 ebi) = Ok (ebi mod 16) /\
    (* the P-GW answers *)
    (forall b' r, bytes_ok b' -> N.of_nat (len b') + 4 < 65536 -> v2_parse g2 b' = Ok (d_DeleteSessionResponse, r) ->
      exists raw, sgw_delete m (Some a) (Some s) ebi q (Some (d_DeleteSessionResponse, r)) = Ok (Relayed (Some ask) (Some raw) true None) /\
        same_to raw d_DeleteSessionResponse t (h2_seq (m_hdr m)) (m_fs r)) /\
    (* it does not *)
    (exists raw, sgw_delete m (Some a) (Some s) ebi q None = Ok (Relayed (Some ask) (Some raw) false (Some ETimeout)) /\ deletion_answer m raw t 12) /\
    (* another message comes: the MME is not answered *)
    (forall d r, md_name d <> "DeleteSessionResponse" ->
      sgw_delete m (Some a) (Some s) ebi q (Some (d, r)) = Ok (Relayed (Some ask) None false (Some EUnexpectedType))).
Proof.
  intros b m a s p t ebi q Hb Hp E1 E2 H1 H2 Hq. destruct (request_facts b _ m Hb Hp) as (Hs & _).
  destruct (send_dsreq ebi p q H1 Hq) as (ask & S1 & S2). destruct (dsrsp_answer m t 12 H2 eq_refl Hs) as (tim & T1 & T2).
  exists ask. split; [exact S2|]. split; [apply ebi_facts|]. split; [|split].
  - intros b' r Hb' Hl' Hp'.
    destruct (C76_v2_forward b' _ r t (h2_seq (m_hdr m)) Hb' Hl' Hp' H2 Hs) as (raw & x & R1 & _ & R2 & R3 & R4 & R5 & _); [discriminate|].
    exists raw. split; [|exists x; repeat split; assumption]. unfold sgw_delete. rewrite E1, S1. cbn [bind]. rewrite E2. unfold passed. rewrite R1. reflexivity.
  - exists tim. split; [|exact T2]. unfold sgw_delete. rewrite E1, S1. cbn [bind]. rewrite E2. unfold sent_as. rewrite T1. reflexivity.
  - intros d r Hd. unfold sgw_delete. rewrite E1, S1. cbn [bind]. rewrite E2. unfold is_a. rewrite (proj2 (String.eqb_neq _ _) Hd). reflexivity.
Qed.
Print Assumptions C76_sgw_delete.
(** A request that finds no session, or a session without the P-GW's TEID, is not answered and
    nothing is sent to the P-GW *)
Theorem C76_sgw_delete_silent_refuted : forall m a s ebi q w, s = None \/ a = None \/ (exists x, s = Some x /\ aget (s_teids x) 7 = None) ->
  exists e, sgw_delete m a s ebi q w = Ok (Relayed None None false (Some e)).
Proof.
  intros m a s ebi q w H. destruct s as [x|]; destruct a as [y|]; cbn [sgw_delete]; try (eexists; reflexivity).
  destruct H as [H|[H|(z & E & H)]]; try discriminate. injection E as <-. rewrite H. eexists. reflexivity.
Qed.
Print Assumptions C76_sgw_delete_silent_refuted.

(** ** Delete Bearer Request from the P-GW *)
(** the one EBI the request gives: its Linked EBI, or the first of its EBIs *)
Definition gives (m : msg2) (f : string) (i : ie2) : Prop :=
  (f = "LinkedEBI" /\ fget (m_fs m) "LinkedEBI" = [Some i] /\ fget (m_fs m) "EBIs" = []) \/
  (f = "EBIs" /\ fget (m_fs m) "LinkedEBI" = [] /\ exists r, fget (m_fs m) "EBIs" = Some i :: r).
Definition bearer_answer (m : msg2) (raw : bytes) (teid cause : N) (offending : option N) : Prop :=
  carries raw d_DeleteBearerResponse teid (h2_seq (m_hdr m)) "Cause" (new_cause g2 cause 0 0 0 offending).

Lemma gives_step m f i p t a s bearer q w : gives m f i -> aget (s_teids s) 7 = Some p -> aget (s_teids a) 10 = Some t ->
  sgw_delete_bearer m (Some s) (Some a) bearer q w =
  (do e <- must (acc_ebi g2 i);
   if bearer e then
     do ask <- sent_as d_DeleteBearerRequest t q [Some i];
     match w with
     | None => do x <- sent_as d_DeleteBearerResponse p (h2_seq (m_hdr m)) [Some (new_cause g2 73 0 0 0 None)]; Ok (Relayed (Some ask) (Some x) true (Some ETimeout))
     | Some (d, r) =>
         if is_a d "DeleteBearerResponse" then do x <- passed d r p (h2_seq (m_hdr m)); Ok (Relayed (Some ask) (Some x) true None)
         else Ok (Relayed (Some ask) None false (Some EUnexpectedType))
     end
   else do x <- sent_as d_DeleteBearerResponse p (h2_seq (m_hdr m)) [Some (new_cause g2 64 0 0 0 None)]; Ok (Relayed None (Some x) false (Some ENoBearer))).
Proof.
  intros G E1 E2. unfold sgw_delete_bearer. rewrite E1, E2. cbv zeta.
  destruct G as [(-> & -> & ->)|(-> & -> & r & ->)]; reflexivity.
Qed.
Theorem C76_sgw_delete_bearer : forall b m a s p t (bearer : N -> bool) q f i e, bytes_ok b -> N.of_nat (len b) + 4 < 65536 -> v2_parse g2 b = Ok (d_DeleteBearerRequest, m) ->
  aget (s_teids s) 7 = Some p -> aget (s_teids a) 10 = Some t -> p < 4294967296 -> t < 4294967296 -> q < 16777216 ->
  gives m f i -> acc_ebi g2 i = Ok e -> bearer e = true ->
  exists ask, carries ask d_DeleteBearerRequest t q f i /\
    (* the MME answers *)
    (forall b' r, bytes_ok b' -> N.of_nat (len b') + 4 < 65536 -> v2_parse g2 b' = Ok (d_DeleteBearerResponse, r) ->
      exists raw, sgw_delete_bearer m (Some s) (Some a) bearer q (Some (d_DeleteBearerResponse, r)) = Ok (Relayed (Some ask) (Some raw) true None) /\
        same_to raw d_DeleteBearerResponse p (h2_seq (m_hdr m)) (m_fs r)) /\
    (* it does not: the bearer is removed all the same *)
    (exists raw, sgw_delete_bearer m (Some s) (Some a) bearer q None = Ok (Relayed (Some ask) (Some raw) true (Some ETimeout)) /\ bearer_answer m raw p 73 None) /\
    (* another message comes: the P-GW is not answered *)
    (forall d r, md_name d <> "DeleteBearerResponse" ->
      sgw_delete_bearer m (Some s) (Some a) bearer q (Some (d, r)) = Ok (Relayed (Some ask) None false (Some EUnexpectedType))).
Proof.
  intros b m a s p t bearer q f i e Hb Hl Hp E1 E2 H1 H2 Hq G He Hbe. destruct (request_facts b _ m Hb Hp) as (Hs & _).
  assert (S : exists ask, sent_as d_DeleteBearerRequest t q [Some i] = Ok ask /\ carries ask d_DeleteBearerRequest t q f i).
  { destruct G as [(-> & F & _)|(-> & _ & r & F)]; (eapply send_dbreq; [exact Hb|exact Hl|exact Hp| |exact F|exact H2|exact Hq]); cbn [In]; tauto. }
  destruct S as (ask & S1 & S2). destruct (send_dbrsp 73 None p (h2_seq (m_hdr m)) eq_refl ltac:(discriminate) H1 Hs) as (tim & T1 & T2).
  exists ask. split; [exact S2|]. split; [|split].
  - intros b' r Hb' Hl' Hp'.
    destruct (C76_v2_forward b' _ r p (h2_seq (m_hdr m)) Hb' Hl' Hp' H1 Hs) as (raw & x & R1 & _ & R2 & R3 & R4 & R5 & _); [discriminate|].
    exists raw. split; [|exists x; repeat split; assumption]. rewrite (gives_step m f i p t a s bearer q _ G E1 E2), He. cbn [must bind]. rewrite Hbe, S1. cbn [bind]. unfold passed. rewrite R1. reflexivity.
  - exists tim. split; [|exact T2]. rewrite (gives_step m f i p t a s bearer q _ G E1 E2), He. cbn [must bind]. rewrite Hbe, S1. cbn [bind]. rewrite T1. reflexivity.
  - intros d r Hd. rewrite (gives_step m f i p t a s bearer q _ G E1 E2), He. cbn [must bind]. rewrite Hbe, S1. cbn [bind]. unfold is_a. rewrite (proj2 (String.eqb_neq _ _) Hd). reflexivity.
Qed.
Print Assumptions C76_sgw_delete_bearer.

(** A request that is refused: nothing is asked of the MME and nothing is removed.  The error is
    nil when the request gives no EBI at all. *)
Theorem C76_sgw_delete_bearer_refused : forall b m a s p t (bearer : N -> bool) q w, bytes_ok b -> v2_parse g2 b = Ok (d_DeleteBearerRequest, m) ->
  aget (s_teids s) 7 = Some p -> aget (s_teids a) 10 = Some t -> p < 4294967296 ->
  let refused cause offending e := exists raw, sgw_delete_bearer m (Some s) (Some a) bearer q w = Ok (Relayed None (Some raw) false e) /\ bearer_answer m raw p cause offending in
  (fget (m_fs m) "LinkedEBI" = [] -> fget (m_fs m) "EBIs" = [] -> refused 70 (Some 73) None) /\
  (fget (m_fs m) "LinkedEBI" <> [] -> fget (m_fs m) "EBIs" <> [] -> refused 64 (Some 73) (Some EBoth)) /\
  (forall f i e, gives m f i -> acc_ebi g2 i = Ok e -> bearer e = false -> refused 64 None (Some ENoBearer)).
Proof.
  intros b m a s p t bearer q w Hb Hp E1 E2 H1 refused. destruct (request_facts b _ m Hb Hp) as (Hs & Hw & Hn). unfold refused. split; [|split].
  - intros F1 F2. destruct (send_dbrsp 70 (Some 73) p (h2_seq (m_hdr m)) eq_refl) as (x & X1 & X2); try assumption; [intros y [= <-]; reflexivity|].
    exists x. split; [|exact X2]. unfold sgw_delete_bearer. rewrite E1, E2. cbv zeta. rewrite F1, F2, X1. reflexivity.
  - intros F1 F2. pose proof (Hn "EBIs") as N2. destruct (fget (m_fs m) "LinkedEBI") as [|l ls] eqn:L1; [congruence|]. destruct (fget (m_fs m) "EBIs") as [|[i|] r] eqn:L2; [congruence| |elim N2; left; reflexivity].
    assert (T : i2_type i = 73).
    { apply (ebis_type b m i Hb Hp). rewrite L2. left. reflexivity. }
    destruct (send_dbrsp 64 (Some 73) p (h2_seq (m_hdr m)) eq_refl) as (x & X1 & X2); try assumption; [intros y [= <-]; reflexivity|].
    exists x. split; [|exact X2]. unfold sgw_delete_bearer. rewrite E1, E2. cbv zeta. rewrite L1, L2, T. cbn [bind]. rewrite X1. destruct l; reflexivity.
  - intros f i e G He Hbe. destruct (send_dbrsp 64 None p (h2_seq (m_hdr m)) eq_refl ltac:(discriminate) H1 Hs) as (x & X1 & X2).
    exists x. split; [|exact X2]. rewrite (gives_step m f i p t a s bearer q w G E1 E2), He. cbn [must bind]. rewrite Hbe, X1. reflexivity.
Qed.
Print Assumptions C76_sgw_delete_bearer_refused.

(** A request that finds no session, or sessions without both TEIDs, is not answered *)
Theorem C76_sgw_delete_bearer_silent_refuted : forall m a s bearer q w,
  s = None \/ a = None \/ (exists x, s = Some x /\ aget (s_teids x) 7 = None) \/ (exists x, a = Some x /\ aget (s_teids x) 10 = None) ->
  exists e, sgw_delete_bearer m s a bearer q w = Ok (Relayed None None false (Some e)).
Proof.
  intros m a s bearer q w H. destruct s as [x|]; destruct a as [y|]; unfold sgw_delete_bearer; try (eexists; reflexivity).
  destruct H as [H|[H|[(z & E & H)|(z & E & H)]]]; try discriminate; injection E as <-; rewrite H; [eexists; reflexivity|].
  destruct (aget (s_teids x) 7); eexists; reflexivity.
Qed.
Print Assumptions C76_sgw_delete_bearer_silent_refuted.

(** Whatever Delete Bearer Request arrives, the handler returns *)
Theorem C76_sgw_delete_bearer_returns : forall b m a s p t bearer q, bytes_ok b -> N.of_nat (len b) + 4 < 65536 -> v2_parse g2 b = Ok (d_DeleteBearerRequest, m) ->
  aget (s_teids s) 7 = Some p -> aget (s_teids a) 10 = Some t -> p < 4294967296 -> t < 4294967296 -> q < 16777216 ->
  (exists o, sgw_delete_bearer m (Some s) (Some a) bearer q None = Ok o) /\
  forall b' d r, bytes_ok b' -> N.of_nat (len b') + 4 < 65536 -> v2_parse g2 b' = Ok (d, r) ->
    exists o, sgw_delete_bearer m (Some s) (Some a) bearer q (Some (d, r)) = Ok o.
Proof.
  intros b m a s p t bearer q Hb Hl Hp E1 E2 H1 H2 Hq. destruct (request_facts b _ m Hb Hp) as (Hs & Hw & Hn).
  assert (Hall : forall w, (w = None \/ exists b' d r, w = Some (d, r) /\ bytes_ok b' /\ N.of_nat (len b') + 4 < 65536 /\ v2_parse g2 b' = Ok (d, r)) ->
    exists o, sgw_delete_bearer m (Some s) (Some a) bearer q w = Ok o).
  { intros w Hwt.
    assert (Hg : forall f k i r, In (f, k) [("LinkedEBI", FSingle); ("EBIs", FList)] -> fget (m_fs m) f = Some i :: r ->
      exists o, (do e <- must (acc_ebi g2 i);
       if bearer e then
         do ask <- sent_as d_DeleteBearerRequest t q [Some i];
         match w with
         | None => do x <- sent_as d_DeleteBearerResponse p (h2_seq (m_hdr m)) [Some (new_cause g2 73 0 0 0 None)]; Ok (Relayed (Some ask) (Some x) true (Some ETimeout))
         | Some (d, r) =>
             if is_a d "DeleteBearerResponse" then do x <- passed d r p (h2_seq (m_hdr m)); Ok (Relayed (Some ask) (Some x) true None)
             else Ok (Relayed (Some ask) None false (Some EUnexpectedType))
         end
       else do x <- sent_as d_DeleteBearerResponse p (h2_seq (m_hdr m)) [Some (new_cause g2 64 0 0 0 None)]; Ok (Relayed None (Some x) false (Some ENoBearer))) = Ok o).
    { intros f k i r Hf F. assert (A : exists e, must (acc_ebi g2 i) = Ok e).
      { pose proof (acc_ebi_np i (Hw f i ltac:(rewrite F; left; reflexivity))) as N0. unfold must. destruct (acc_ebi g2 i); [eexists; reflexivity|eexists; reflexivity|congruence]. }
      destruct A as (e & ->). cbn [bind]. destruct (bearer e).
      - destruct (send_dbreq b m f k i r t q Hb Hl Hp Hf F H2 Hq) as (ask & -> & _). cbn [bind]. destruct Hwt as [->|(b' & d & r' & -> & Hb' & Hl' & Hp')].
        + destruct (send_dbrsp 73 None p (h2_seq (m_hdr m)) eq_refl ltac:(discriminate) H1 Hs) as (x & -> & _). eexists. reflexivity.
        + destruct (is_a d "DeleteBearerResponse") eqn:D; [|eexists; reflexivity]. apply String.eqb_eq in D.
          destruct (C76_v2_forward b' _ r' p (h2_seq (m_hdr m)) Hb' Hl' Hp' H1 Hs) as (raw & x & R1 & _); [rewrite D; discriminate|]. unfold passed. rewrite R1. eexists. reflexivity.
      - destruct (send_dbrsp 64 None p (h2_seq (m_hdr m)) eq_refl ltac:(discriminate) H1 Hs) as (x & -> & _). eexists. reflexivity. }
    pose proof (Hn "LinkedEBI") as N1. pose proof (Hn "EBIs") as N2. unfold sgw_delete_bearer. rewrite E1, E2. cbv zeta.
    destruct (fget (m_fs m) "LinkedEBI") as [|[l|] ls] eqn:L1; [| |elim N1; left; reflexivity]; (destruct (fget (m_fs m) "EBIs") as [|[i|] r] eqn:L2; [| |elim N2; left; reflexivity]).
    - destruct (send_dbrsp 70 (Some 73) p (h2_seq (m_hdr m)) eq_refl) as (x & -> & _); try assumption; [intros y [= <-]; reflexivity|]. eexists. reflexivity.
    - eapply Hg; [|exact L2]. cbn [In]. right. left. reflexivity.
    - eapply Hg; [|exact L1]. cbn [In]. left. reflexivity.
    - rewrite (ebis_type b m i Hb Hp) by (rewrite L2; left; reflexivity).
      destruct (send_dbrsp 64 (Some 73) p (h2_seq (m_hdr m)) eq_refl) as (x & -> & _); try assumption; [intros y [= <-]; reflexivity|]. eexists. reflexivity. }
  split; [apply Hall; left; reflexivity|]. intros b' d r A B C. apply Hall. right. exists b', d, r. repeat split; assumption.
Qed.
Print Assumptions C76_sgw_delete_bearer_returns.

(** ** Examples *)
Definition y_octets (d : mdesc) (t n : N) (ies : list (option ie2)) : bytes := match sent_as d t n ies with Ok b => b | _ => [] end.
Definition y_msg (b : bytes) : msg2 := match v2_parse g2 b with Ok (_, m) => m | _ => Msg (new_hdr2 0 0 0 0 []) [] end.
(** the MME deletes the session (TEID 257 here, sequence number 78); the P-GW has TEID 1025, the
    MME 513; the P-GW's answer, Cause 16 and a Recovery, carries no TEID flag *)
Definition y_s5 : session := Sess 1 true [48] [] [] [] [] 0 [(7, 1025)] [] [].
Definition y_s11 : session := Sess 2 true [48] [] [] [] [] 0 [(10, 513)] [] [].
Definition y_req : bytes := y_octets d_DeleteSessionRequest 257 78 [Some (new_ebi g2 5)].
Definition y_rsp : bytes := [64; 37; 0; 15; 0; 0; 9; 0; 2; 0; 2; 0; 16; 0; 3; 0; 1; 0; 7].
Example C76_sgw_delete_example :
  (bytes_okb y_req = true /\ v2_parse g2 y_req = Ok (d_DeleteSessionRequest, y_msg y_req)) /\
  (bytes_okb y_rsp = true /\ v2_parse g2 y_rsp = Ok (d_DeleteSessionResponse, y_msg y_rsp)) /\
  match sgw_delete (y_msg y_req) (Some y_s11) (Some y_s5) 5 9 (Some (d_DeleteSessionResponse, y_msg y_rsp)) with
  | Ok (Relayed (Some ask) (Some raw) true None) =>
      ask = [72; 36; 0; 13; 0; 0; 4; 1; 0; 0; 9; 0; 73; 0; 1; 0; 5] /\
      raw = [72; 37; 0; 19; 0; 0; 2; 1; 0; 0; 78; 0; 2; 0; 2; 0; 16; 0; 3; 0; 1; 0; 7]
  | _ => False end.
Proof. vm_compute. repeat split. Qed.
(** a Delete Bearer Request with EBIs 6 and 7: the MME is asked about 6 alone *)
Definition y_ebi (n e : N) : option ie2 := Some (set_instance2 (new_ebi g2 e) n).
Definition y_breq (ies : list (option ie2)) : bytes := y_octets d_DeleteBearerRequest 258 79 ies.
Example C76_sgw_delete_bearer_example :
  let b := y_breq [y_ebi 1 6; y_ebi 1 7] in let m := y_msg b in
  bytes_okb b = true /\ v2_parse g2 b = Ok (d_DeleteBearerRequest, m) /\
  gives m "EBIs" (set_instance2 (new_ebi g2 6) 1) /\ acc_ebi g2 (set_instance2 (new_ebi g2 6) 1) = Ok 6 /\
  match sgw_delete_bearer m (Some y_s5) (Some y_s11) (fun e => e =? 6) 10 None with
  | Ok (Relayed (Some ask) (Some raw) true (Some ETimeout)) =>
      ask = [72; 99; 0; 13; 0; 0; 2; 1; 0; 0; 10; 0; 73; 0; 1; 1; 6] /\
      raw = [72; 100; 0; 14; 0; 0; 4; 1; 0; 0; 79; 0; 2; 0; 2; 0; 73; 0]
  | _ => False end /\
  match sgw_delete_bearer (y_msg (y_breq [y_ebi 0 6; y_ebi 1 7])) (Some y_s5) (Some y_s11) (fun e => e =? 6) 10 None with
  | Ok (Relayed None (Some raw) false (Some EBoth)) => raw = [72; 100; 0; 18; 0; 0; 4; 1; 0; 0; 79; 0; 2; 0; 6; 0; 64; 0; 73; 0; 0; 0]
  | _ => False end.
Proof.
  intros b m. split; [vm_compute; reflexivity|]. split; [vm_compute; reflexivity|]. split; [right; split; [reflexivity|split; [vm_compute; reflexivity|eexists; vm_compute; reflexivity]]|].
  vm_compute. repeat split.
Qed.
