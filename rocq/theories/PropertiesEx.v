(** The example P-GW and MME (ExPgw.v): C75. *)
From Coq Require Import String Lia.
From Verif Require Import Base BaseLemmas Maps MapsProofs Utils UtilsProofs V2IE V2IESpec V2IEProofs V2Header MsgModel MsgSpec MsgProofs MsgProofs2 MsgProofs3 Msgs2Gen V2Msg V2MsgProofs
  V2Codec V2Codec2 V2Ctx CodecSpec CodecSpec4 V2CodecProofs V2CodecProofs2 V2CodecProofs5 V2IdProofs V2AccProofs PropertiesBase PropertiesCtx CPlane SessReq SessReqProofs PropertiesReq ExPgw.
Open Scope string_scope.
Open Scope N_scope.
Open Scope list_scope.

(** ** What the words mean *)
(** the field holds an IE, and the accessor reads v from the (first) one *)
Definition reads {A} (m : msg2) (f : string) (rd : ie2 -> res A) (v : A) : Prop := exists i r, fget (m_fs m) f = Some i :: r /\ rd i = Ok v.
Definition readable {A} (m : msg2) (f : string) (rd : ie2 -> res A) : Prop := exists v, reads m f rd v.
(** an EBI or an F-TEID in a Bearer Context can be read *)
Definition child_readable (c : ie2) : Prop :=
  (i2_type c = 73 -> exists e, acc_ebi g2 c = Ok e) /\
  (i2_type c = 87 -> exists it t, acc_if_type c = Ok it /\ acc_teid c = Ok t).
(** the Bearer Context counted: the first *)
Definition context (m : msg2) (cs : list ie2) : Prop := exists c r, fget (m_fs m) "BearerContextsToBeCreated" = Some c :: r /\ i2_children c = cs.
(** a request for subscriber k that has all that the P-GW asks for *)
Definition acceptable (m : msg2) (k : N) (cs : list ie2) (teid : N) : Prop :=
  In k [1; 2; 3; 4; 5] /\ reads m "IMSI" acc_imsi (known_imsi k) /\ readable m "MSISDN" acc_msisdn /\ readable m "MEI" acc_mei /\
  readable m "APN" (acc_fqdn g2 71) /\ readable m "ServingNetwork" acc_mcc_mnc /\ readable m "RATType" (acc_u8 g2 82) /\
  reads m "SenderFTEIDC" acc_teid teid /\ context m cs /\ Forall child_readable cs.
(** the EBI of the last EBI child, 0 without one *)
Fixpoint last_ebi (cs : list ie2) (e : N) : N :=
  match cs with
  | [] => e
  | c :: r => last_ebi r (if i2_type c =? 73 then match acc_ebi g2 c with Ok v => v | _ => e end else e)
  end.
(** the TEID of the last F-TEID child for interface [it], t without one *)
Fixpoint last_teid (it : N) (cs : list ie2) (t : N) : N :=
  match cs with
  | [] => t
  | c :: r => last_teid it r (if i2_type c =? 87 then match acc_if_type c with
                                                       | Ok x => if x =? it then match acc_teid c with Ok v => v | _ => t end else t
                                                       | _ => t end else t)
  end.

(** ** The request *)
Lemma needs_ok {A} m f (rd : ie2 -> res A) v : needs m f rd = Ok v <-> reads m f rd v.
Proof.
  unfold needs, reads. destruct (fget (m_fs m) f) as [|[i|] r]; split; try discriminate.
  - intros (i & r & E & _). discriminate.
  - intros E. exists i, r. now split.
  - intros (j & q & E & E'). injection E as <- <-. exact E'.
  - intros (i & q & E & _). discriminate.
Qed.
Definition teids_after (cs : list ie2) (s s' : session) : Prop :=
  s_imsi s' = s_imsi s /\ forall t, aget (s_teids s) 6 = Some t -> aget (s_teids s') 6 = Some (last_teid 6 cs t).
Lemma aget_aput {A} (m : amap A) k v k' : aget (aput m k v) k' = if k =? k' then Some v else aget m k'.
Proof.
  unfold aput. cbn [aget]. destruct (N.eqb_spec k k') as [E|E]; [reflexivity|].
  induction m as [|[x a] r IH]; [reflexivity|]. cbn [adel filter]. cbn. destruct (N.eqb_spec x k) as [F|F]; cbn.
  - subst x. rewrite (proj2 (N.eqb_neq k k') E). exact IH.
  - destruct (x =? k'); [reflexivity|exact IH].
Qed.
Lemma context_ok cs : forall e s x, read_context false cs e s = Ok x ->
  Forall child_readable cs /\ fst x = last_ebi cs e /\ teids_after cs s (snd x).
Proof.
  induction cs as [|c r IH]; intros e s x H.
  - injection H as <-. split; [constructor|]. split; [reflexivity|]. split; [reflexivity|]. intros t Ht. exact Ht.
  - cbn [read_context] in H. cbn [last_ebi last_teid].
    destruct (N.eqb_spec (i2_type c) 73) as [E|E].
    + apply bind_ok_inv in H as (v & V & H). destruct (IH _ _ _ H) as (I1 & I2 & I3 & I4). rewrite V.
      replace (i2_type c =? 87) with false by (rewrite E; reflexivity).
      split; [constructor; [|exact I1]; split; [intros _; exists v; exact V|rewrite E; discriminate]|]. split; [exact I2|]. split; [exact I3|].
      intros t Ht. cbn [last_teid]. rewrite E. cbn. apply I4, Ht.
    + destruct (N.eqb_spec (i2_type c) 87) as [F|F].
      * cbn [andb] in H. apply bind_ok_inv in H as (it & It & H). apply bind_ok_inv in H as (v & V & H).
        destruct (IH _ _ _ H) as (I1 & I2 & I3 & I4). split; [constructor; [|exact I1]; split; [contradiction|intros _; exists it, v; now split]|].
        split; [exact I2|]. split; [exact I3|]. intros t Ht. cbn [last_teid]. rewrite F, It, V. cbn [N.eqb Pos.eqb].
        apply I4. cbn [add_teid set_s s_teids]. rewrite aget_aput. destruct (it =? 6); [reflexivity|exact Ht].
      * destruct (IH _ _ _ H) as (I1 & I2 & I3 & I4). split; [constructor; [|exact I1]; split; contradiction|]. split; [exact I2|]. split; [exact I3|].
        intros t Ht. cbn [last_teid]. rewrite (proj2 (N.eqb_neq _ _) F). apply I4, Ht.
Qed.
Lemma context_complete cs : Forall child_readable cs -> forall e s, exists x, read_context false cs e s = Ok x.
Proof.
  induction 1 as [|c r [C1 C2] _ IH]; intros e s; [exists (e, s); reflexivity|]. cbn [read_context].
  destruct (N.eqb_spec (i2_type c) 73) as [E|E]; [destruct (C1 E) as (v & ->); cbn [bind]; apply IH|].
  destruct (N.eqb_spec (i2_type c) 87) as [F|F]; [|apply IH]. cbn [andb]. destruct (C2 F) as (it & t & -> & ->). cbn [bind]. apply IH.
Qed.
Lemma keep_ok m peer x : pgw_keep m peer = Ok x ->
  exists teid cs, reads m "IMSI" acc_imsi (s_imsi (snd x)) /\ readable m "MSISDN" acc_msisdn /\ readable m "MEI" acc_mei /\
  readable m "APN" (acc_fqdn g2 71) /\ readable m "ServingNetwork" acc_mcc_mnc /\ readable m "RATType" (acc_u8 g2 82) /\
  reads m "SenderFTEIDC" acc_teid teid /\ context m cs /\ Forall child_readable cs /\
  fst x = last_ebi cs 0 /\ aget (s_teids (snd x)) 6 = Some (last_teid 6 cs teid).
Proof.
  unfold pgw_keep. intros H. do 7 (let v := fresh "v" in let V := fresh "V" in apply bind_ok_inv in H as (v & V & H); apply needs_ok in V).
  apply needs_ok in H. destruct H as (c & r & F & H). destruct (context_ok _ _ _ _ H) as (I1 & I2 & I3 & I4).
  exists v5, (i2_children c). cbn [s_imsi] in I3. rewrite I3. repeat (split; [first [eassumption | eexists; eassumption | (exists c, r; now split)]|]).
  apply I4. reflexivity.
Qed.
Lemma keep_complete m peer k cs teid : acceptable m k cs teid -> exists x, pgw_keep m peer = Ok x /\ s_imsi (snd x) = known_imsi k /\
  fst x = last_ebi cs 0 /\ aget (s_teids (snd x)) 6 = Some (last_teid 6 cs teid).
Proof.
  intros (_ & H1 & (v2 & H2) & (v3 & H3) & (v4 & H4) & (v5 & H5) & (v6 & H6) & H7 & (c & r & F & Ec) & H8).
  unfold pgw_keep. rewrite (proj2 (needs_ok _ _ _ _) H1), (proj2 (needs_ok _ _ _ _) H2), (proj2 (needs_ok _ _ _ _) H3), (proj2 (needs_ok _ _ _ _) H4),
    (proj2 (needs_ok _ _ _ _) H5), (proj2 (needs_ok _ _ _ _) H6), (proj2 (needs_ok _ _ _ _) H7). cbn [bind].
  unfold needs. rewrite F, Ec. destruct (context_complete cs H8 0 (Sess peer false (known_imsi k) v2 v3 [] (snd v5) v6 [(6, teid)] [(default_name, 0)] [])) as (x & X).
  exists x. split; [exact X|]. destruct (context_ok _ _ _ _ X) as (_ & I2 & I3 & I4). split; [exact I3|]. split; [exact I2|]. apply I4. reflexivity.
Qed.

(** ** The answer *)
Lemma new_shape g d teid seq ies r : v2_new g d teid seq ies = Ok r ->
  exists fs l, run_table (io2 g) (md_new d) ies (fempty d) = Ok fs /\ r = Msg (h2_set_len (ctor2 (md_ctor d) teid seq) l) fs.
Proof.
  unfold v2_new, msg_new, msg_set_length. intros H. apply bind_ok_inv in H as (fs & F & H). apply bind_ok_inv in H as (n & _ & H).
  injection H as <-. exists fs. eexists. split; [exact F|reflexivity].
Qed.
Lemma respond_len d h fs l l' seq : md_reset d = true ->
  respond_bytes d (Msg (h2_set_len h l) fs) seq = respond_bytes d (Msg (h2_set_len h l') fs) seq.
Proof. intros R. unfold respond_bytes, v2_mto, msg_mto. rewrite R. reflexivity. Qed.
Lemma csrsp_built : In d_CreateSessionResponse built2.
Proof. unfold built2. rewrite filter_In. split; [|vm_compute; reflexivity]. unfold all_msgs2. repeat first [left; reflexivity|right]. Qed.
Lemma dsrsp_built : In d_DeleteSessionResponse built2.
Proof. unfold built2. rewrite filter_In. split; [|vm_compute; reflexivity]. unfold all_msgs2. repeat first [left; reflexivity|right]. Qed.

Lemma inst_facts i n : n < 16 -> wf2 g2 i -> wf2 g2 (set_instance2 i n) /\ i2_inst (set_instance2 i n) = n /\ i2_type (set_instance2 i n) = i2_type i /\
  acc_fteid (set_instance2 i n) = acc_fteid i /\ acc_teid (set_instance2 i n) = acc_teid i /\ i2_payload (set_instance2 i n) = i2_payload i /\ i2_children (set_instance2 i n) = i2_children i.
Proof.
  intros Hn W. assert (E : N.land n 15 = n) by (change 15 with (N.ones 4); rewrite N.land_ones; apply N.mod_small; exact Hn).
  destruct i as [t l k p c]. cbn [set_instance2]. rewrite E. repeat split. inversion W; subst; [apply wf2_plain|apply wf2_grouped]; first [assumption|lia|reflexivity].
Qed.
Lemma fteid_made ift t ip n : ift < 64 -> t < 4294967296 -> octets 4 ip -> n < 16 ->
  exists i, with_instance (allocated ift (Some t) (Some ip)) n = Ok i /\ wf2 g2 i /\ i2_type i = 87 /\ i2_inst i = n /\ i2_children i = [] /\
    len (i2_payload i) = 9%nat /\ acc_fteid i = Ok (FTeid 128 ift t (Some ip) None) /\ acc_teid i = Ok t.
Proof.
  intros Hi Ht [Lo Bo] Hn.
  assert (A4 : ip_arg_ok (Some ip)) by (intros b E; injection E as <-; exact Bo).
  assert (T4 : to4 (Some ip) = Some ip) by (unfold to4; rewrite Lo; reflexivity).
  destruct (fteid_all g2 ift t (Some ip) None Hi Ht A4 ltac:(intros b E; discriminate)) as (i & (M1 & M2 & M3 & M4 & M5) & (f & F1 & F2 & F3 & F4 & F5) & _ & A2 & _).
  specialize (M5 eq_refl). destruct (inst_facts i n Hn M5) as (I1 & I2 & I3 & I4 & I5 & I6 & I7).
  exists (set_instance2 i n). unfold with_instance, allocated. rewrite M1. cbn [bind]. split; [reflexivity|]. split; [exact I1|].
  split; [congruence|]. split; [exact I2|]. split.
  { rewrite I7. inversion M5; subst; [reflexivity|]. cbn in *. subst. discriminate. }
  split. { rewrite I6, M4. unfold fteid_octets. rewrite T4. cbn [to16 opt_bytes]. rewrite !app_length, Lo. reflexivity. }
  rewrite I4, I5. split; [|exact A2]. rewrite F1. f_equal.
  assert (Fl : exists p, fteid_parse p = Ok f /\ bytes_ok p).
  { unfold acc_fteid, typed in F1. rewrite M2 in F1. cbn in F1. exists (i2_payload i). split; [exact F1|]. exact (wf2_payload_ok g2 i M5). }
  destruct Fl as (p & P1 & P2). destruct (fteid_parse_inv p f P2 P1) as [(_ & _ & _ & _ & Ef) _].
  destruct f as [fl a b v4 v6]. cbn in *. subst. rewrite T4. reflexivity.
Qed.
Definition csrsp_of (a b c d e : ie2) : @fmap ie2 :=
  fset (fset (fset (fset (fset (fempty d_CreateSessionResponse) "Cause" [Some a]) "PGWS5S8FTEIDC" [Some b]) "PAA" [Some c]) "APNRestriction" [Some d]) "BearerContextsCreated" [Some e].
Lemma csrsp_run l1 p1 c1 l2 p2 c2 l3 p3 c3 l4 p4 c4 l5 p5 c5 :
  run_table (io2 g2) (md_new d_CreateSessionResponse) [Some (IE2 2 l1 0 p1 c1); Some (IE2 87 l2 1 p2 c2); Some (IE2 79 l3 0 p3 c3); Some (IE2 127 l4 0 p4 c4); Some (IE2 93 l5 0 p5 c5)]
    (fempty d_CreateSessionResponse) = Ok (csrsp_of (IE2 2 l1 0 p1 c1) (IE2 87 l2 1 p2 c2) (IE2 79 l3 0 p3 c3) (IE2 127 l4 0 p4 c4) (IE2 93 l5 0 p5 c5)).
Proof. vm_compute. reflexivity. Qed.
Lemma csrsp_run6 l1 p1 c1 l2 p2 c2 l3 p3 c3 l4 p4 c4 l5 p5 c5 l6 p6 c6 :
  run_table (io2 g2) (md_new d_CreateSessionResponse) [Some (IE2 2 l1 0 p1 c1); Some (IE2 87 l2 1 p2 c2); Some (IE2 79 l3 0 p3 c3); Some (IE2 127 l4 0 p4 c4); Some (IE2 93 l5 0 p5 c5); Some (IE2 132 l6 0 p6 c6)]
    (fempty d_CreateSessionResponse) = Ok (fset (csrsp_of (IE2 2 l1 0 p1 c1) (IE2 87 l2 1 p2 c2) (IE2 79 l3 0 p3 c3) (IE2 127 l4 0 p4 c4) (IE2 93 l5 0 p5 c5)) "PGWFQCSID" [Some (IE2 132 l6 0 p6 c6)]).
Proof. vm_compute. reflexivity. Qed.
Lemma csrsp_fields a b c d e : let fs := csrsp_of a b c d e in
  fget fs "Cause" = [Some a] /\ fget fs "PGWS5S8FTEIDC" = [Some b] /\ fget fs "PAA" = [Some c] /\
  fget fs "APNRestriction" = [Some d] /\ fget fs "BearerContextsCreated" = [Some e] /\ fget fs "PGWFQCSID" = [] /\
  forall v, fget (fset fs "PGWFQCSID" v) "PGWFQCSID" = v.
Proof. vm_compute. repeat split. Qed.
Lemma csrsp_answer i1 i2 i3 i4 i5 (o : option ie2) sgw (m : msg2) :
  i2_type i1 = 2 -> i2_inst i1 = 0 -> i2_type i2 = 87 -> i2_inst i2 = 1 -> i2_type i3 = 79 -> i2_inst i3 = 0 ->
  i2_type i4 = 127 -> i2_inst i4 = 0 -> i2_type i5 = 93 -> i2_inst i5 = 0 ->
  (forall f, o = Some f -> i2_type f = 132 /\ i2_inst f = 0) ->
  let ies := [Some i1; Some i2; Some i3; Some i4; Some i5] in
  Forall (wf2 g2) (nonnil (ies ++ [o])) -> N.of_nat (12 + len (flat_map (wire2 g2) (nonnil (ies ++ [o])))) < 65536 ->
  sgw < 4294967296 -> h2_seq (m_hdr m) < 16777216 ->
  exists r raw m1, v2_new g2 d_CreateSessionResponse sgw 0 ies = Ok r /\
    respond_bytes d_CreateSessionResponse (match o with Some f => Msg (m_hdr r) (fset (m_fs r) "PGWFQCSID" [Some f]) | None => r end) (h2_seq (m_hdr m)) = Ok raw /\
    v2_parse g2 raw = Ok (d_CreateSessionResponse, m1) /\ h2_get_teid (m_hdr m1) = sgw /\ h2_seq (m_hdr m1) = h2_seq (m_hdr m) /\
    m_fs m1 = match o with Some f => fset (csrsp_of i1 i2 i3 i4 i5) "PGWFQCSID" [Some f] | None => csrsp_of i1 i2 i3 i4 i5 end /\
    bytes_ok raw /\ (len raw <= 12 + len (flat_map (wire2 g2) (nonnil (ies ++ [o]))))%nat.
Proof.
  intros T1 N1 T2 N2 T3 N3 T4 N4 T5 N5 TO ies W L Hg Hs.
  assert (W5 : Forall (wf2 g2) (nonnil ies) /\ N.of_nat (12 + len (flat_map (wire2 g2) (nonnil ies))) < 65536).
  { unfold nonnil in *. rewrite flat_map_app in *. rewrite flat_map_app, app_length in L. apply Forall_app in W. split; [apply W|lia]. }
  destruct W5 as [W5 L5].
  destruct (C64_v2_respond d_CreateSessionResponse 0 1 33 sgw 0 ies m csrsp_built eq_refl Hg W5 L5 Hs) as (r & raw & m1 & R1 & R2 & Q1 & Q2 & R3 & _ & R4 & R5 & R6).
  assert (F5 : run_table (io2 g2) (md_new d_CreateSessionResponse) ies (fempty d_CreateSessionResponse) = Ok (csrsp_of i1 i2 i3 i4 i5)).
  { unfold ies. destruct i1, i2, i3, i4, i5. cbn [i2_type i2_inst] in *. subst. apply csrsp_run. }
  destruct (new_shape _ _ _ _ _ _ R1) as (fs & l & F & Er). rewrite F5 in F. injection F as <-.
  exists r. destruct o as [f|].
  - clear raw m1 R2 R3 R4 R5 R6 Q1 Q2.
    destruct (C64_v2_respond d_CreateSessionResponse 0 1 33 sgw 0 (ies ++ [Some f]) m csrsp_built eq_refl Hg W L Hs) as (r' & raw & m1 & R1' & R2 & Q1 & Q2 & R3 & _ & R4 & R5 & R6).
    assert (F6 : run_table (io2 g2) (md_new d_CreateSessionResponse) (ies ++ [Some f]) (fempty d_CreateSessionResponse) = Ok (fset (csrsp_of i1 i2 i3 i4 i5) "PGWFQCSID" [Some f])).
    { destruct (TO f eq_refl) as [T6 N6]. unfold ies. destruct i1, i2, i3, i4, i5, f. cbn [i2_type i2_inst app] in *. subst. apply csrsp_run6. }
    destruct (new_shape _ _ _ _ _ _ R1') as (fs & l' & F & Er'). rewrite F6 in F. injection F as <-.
    exists raw, m1. split; [exact R1|]. split.
    { unfold response in R2. rewrite R1' in R2. cbn [bind] in R2. rewrite <- R2. subst r r'. cbn [m_hdr m_fs].
      apply (respond_len d_CreateSessionResponse (ctor2 (md_ctor d_CreateSessionResponse) sgw 0)). reflexivity. }
    split; [exact R3|]. split; [exact R4|]. split; [exact R5|]. split; [subst r'; exact R6|]. split; [exact Q1|exact Q2].
  - exists raw, m1. split; [exact R1|]. split.
    { unfold response in R2. rewrite R1 in R2. exact R2. }
    split; [exact R3|]. split; [exact R4|]. split; [exact R5|]. split; [subst r; exact R6|]. split; [exact Q1|].
    unfold nonnil. rewrite flat_map_app. change (flat_map _ [None]) with (@nil ie2). rewrite app_nil_r. exact Q2.
Qed.

Lemma teid_32 i t : bytes_ok (i2_payload i) -> acc_teid i = Ok t -> t < 4294967296.
Proof.
  intros Hb. unfold acc_teid. cbv zeta.
  assert (K : forall a b, (do s <- slice (i2_payload i) a b; be32 s) = Ok t -> t < 4294967296).
  { intros a b H. apply bind_ok_inv in H as (s & S & H). apply slice_inv in S. destruct S as (_ & _ & -> & _).
    refine (be32_lt _ _ _ H). apply bytes_ok_firstn, bytes_ok_skipn, Hb. }
  intros H. repeat match type of H with (if ?c then _ else _) = _ => destruct c; try discriminate H end; try (eapply K; exact H).
  apply bind_ok_inv in H as (x & _ & H).
  repeat match type of H with (if ?c then _ else _) = _ => destruct c; try discriminate H end; eapply K; exact H.
Qed.
Lemma wf2_children i : wf2 g2 i -> Forall (wf2 g2) (i2_children i).
Proof. intros W. inversion W; subst; [constructor|assumption]. Qed.
Lemma in_fset (m : @fmap ie2) f v g o : In o (fget (fset m f v) g) -> In o v \/ In o (fget m g).
Proof.
  induction m as [|[k w] r IH]; cbn [fset fget]; [right; assumption|]. destruct (String.eqb k f) eqn:E; cbn [fget].
  - destruct (String.eqb k g); [left; assumption|right; assumption].
  - destruct (String.eqb k g); [right; assumption|exact IH].
Qed.
Lemma run_act_in a i (m : @fmap ie2) g o : In o (fget (run_act (io2 g2) a i m) g) -> o = Some i \/ exists f, In o (fget m f).
Proof.
  rewrite run_act_route. unfold store. destruct (route _ _ _) as [[[|] f]|]; intros H; [| |right; exists g; exact H].
  - apply in_fset in H as [[<-|[]]|H]; [left; reflexivity|right; exists g; exact H].
  - apply in_fset in H as [H|H]; [|right; exists g; exact H]. apply in_app_iff in H as [H|[<-|[]]]; [right; exists f; exact H|left; reflexivity].
Qed.
Lemma runs_in t ies : forall (m : @fmap ie2) g o, In o (fget (runs (io2 g2) t ies m) g) -> (exists i, o = Some i /\ In i ies) \/ exists f, In o (fget m f).
Proof.
  induction ies as [|i r IH]; intros m g o H; cbn [runs] in H; [right; exists g; exact H|].
  apply IH in H as [(j & -> & J)|(f & H)]; [left; exists j; split; [reflexivity|right; exact J]|].
  apply run_act_in in H as [->|H]; [left; exists i; split; [reflexivity|left; reflexivity]|right; exact H].
Qed.
Lemma request_facts b d m : bytes_ok b -> v2_parse g2 b = Ok (d, m) ->
  h2_seq (m_hdr m) < 16777216 /\ (forall f i, In (Some i) (fget (m_fs m) f) -> wf2 g2 i) /\ forall f, ~ In None (fget (m_fs m) f).
Proof.
  intros Hb Hp. destruct (v2_parse_parts g2 b _ m Hp) as (t & _ & _ & _ & Ep). unfold v2_parse_as, msg_parse in Ep.
  apply bind_ok_inv in Ep as (h & Eh & H). destruct (v2_laws_hdr b h Hb Eh) as [B O].
  assert (E0 : m = Msg h (fempty d) -> h2_seq (m_hdr m) < 16777216 /\ (forall f i, In (Some i) (fget (m_fs m) f) -> wf2 g2 i) /\ forall f, ~ In None (fget (m_fs m) f)).
  { intros ->. split; [exact (h2o_seq _ O)|]. cbn [m_fs]. split; [intros f i|intros f]; rewrite fget_empty; intros []. }
  destruct (_ <? _)%nat; [injection H as <-; exact (E0 eq_refl)|].
  destruct (io_multi (io2 g2) (ho_payload ho2 h)) as [l|e|] eqn:M; [| |discriminate].
  - rewrite run_table_some in H. injection H as <-. split; [exact (h2o_seq _ O)|]. cbn [m_fs].
    pose proof (proj1 (Forall_forall _ _) (v2_laws_multi g2 _ _ M B)) as W.
    split; [intros f i H|intros f H]; apply runs_in in H as [(j & E & J)|(f' & H)]; try (rewrite fget_empty in H; destruct H).
    + injection E as ->. exact (W j J).
    + discriminate.
  - destruct e; try discriminate. destruct (md_soft d); [|discriminate]. injection H as <-. exact (E0 eq_refl).
Qed.

(** ** The P-GW *)
(** the answer of the P-GW to the Create Session Request m of subscriber k *)
Definition session_answer (m : msg2) (raw : bytes) (k ebi sgw tc tu : N) (cip uip : bytes) : Prop :=
  bytes_ok raw /\ (len raw <= 200)%nat /\
  exists a, v2_parse g2 raw = Ok (d_CreateSessionResponse, a) /\
    h2_get_teid (m_hdr a) = sgw /\ h2_seq (m_hdr a) = h2_seq (m_hdr m) /\
    reads a "Cause" (acc_cause g2) 16 /\
    reads a "PGWS5S8FTEIDC" acc_fteid (FTeid 128 7 tc (Some cip) None) /\
    reads a "PAA" acc_ip (Some [10; 10; 10; k]) /\
    reads a "APNRestriction" (acc_u8 g2 127) 2 /\
    reads a "BearerContextsCreated" (acc_cause g2) 16 /\
    reads a "BearerContextsCreated" (acc_ebi g2) (ebi mod 16) /\
    reads a "BearerContextsCreated" (acc_charging_id g2) 0 /\
    (exists c u, fget (m_fs a) "BearerContextsCreated" = [Some c] /\ i2_children c = [new_cause g2 16 0 0 0 None; new_ebi g2 ebi; u; new_charging_id g2 0] /\ i2_instance u = 2 /\
      acc_fteid u = Ok (FTeid 128 5 tu (Some uip) None)) /\
    (if has m "SGWFQCSID" then reads a "PGWFQCSID" acc_fqcsid (FqCsid 0 1 cip [1]) else fget (m_fs a) "PGWFQCSID" = []).

Lemma known_ip k : In k [1; 2; 3; 4; 5] -> subscriber_ip (known_imsi k) = Ok [10; 10; 10; k] /\
  new_paa g2 (Some [10; 10; 10; k]) 0 = Ok (Some (IE2 79 5 0 [1; 10; 10; 10; k] [])) /\ k < 256 /\ known_imsi k <> [] /\
  acc_ip (IE2 79 5 0 [1; 10; 10; 10; k] []) = Ok (Some [10; 10; 10; k]).
Proof. cbn [In]. intros H. decompose [or] H; try contradiction; subst k; vm_compute; repeat split; discriminate. Qed.
Lemma fqcsid_made cip : octets 4 cip -> exists f, new_fqcsid g2 (NodeIP cip) [1] = Ok (Some f) /\ i2_type f = 132 /\ i2_inst f = 0 /\ wf2 g2 f /\ mlen2 g2 f = 11%nat /\
  acc_fqcsid f = Ok (FqCsid 0 1 cip [1]).
Proof.
  intros [L B]. destruct cip as [|a [|b [|c [|d [|? ?]]]]]; try discriminate. clear L.
  exists (IE2 132 7 0 [1; a; b; c; d; 0; 1] []). split; [reflexivity|]. split; [reflexivity|]. split; [reflexivity|]. split.
  - apply wf2_plain; try reflexivity; try lia. inversion B as [|? ? B1 B']; subst. inversion B' as [|? ? B2 B'']; subst. inversion B'' as [|? ? B3 B3']; subst. inversion B3' as [|? ? B4 _]; subst.
    repeat constructor; assumption || lia.
  - split; reflexivity.
Qed.

Theorem C75_pgw_answers : forall b m peer tc tu cip uip k cs teid,
  bytes_ok b -> v2_parse g2 b = Ok (d_CreateSessionRequest, m) -> acceptable m k cs teid ->
  tc < 4294967296 -> tu < 4294967296 -> octets 4 cip -> octets 4 uip ->
  exists r, pgw_create m peer (Some tc) (Some tu) cip uip = Ok r /\
    session_answer m (pd_sent r) k (last_ebi cs 0) (last_teid 6 cs teid) tc tu cip uip /\
    pd_teid r = tc /\ s_imsi (pd_session r) = known_imsi k /\ s_active (pd_session r) = true /\
    aget (s_teids (pd_session r)) 7 = Some tc /\ aget (s_teids (pd_session r)) 5 = Some tu /\
    aget (s_teids (pd_session r)) 6 = Some (last_teid 6 cs teid).
Proof.
  intros b m peer tc tu cip uip k cs teid Hb Hp Ha Hc Hu Oc Ou.
  destruct (request_facts b _ m Hb Hp) as (Hs & Hw & _).
  destruct (keep_complete m peer k cs teid Ha) as ([ebi s] & K1 & K2 & K3 & K4). cbn [fst snd] in *.
  assert (Hk := proj1 Ha). destruct (known_ip k Hk) as (P1 & P2 & P3 & P4 & P5).
  destruct (fteid_made 7 tc cip 1 ltac:(lia) Hc Oc ltac:(lia)) as (s5c & C1 & C2 & C3 & C4 & C5 & C6 & C7 & C8).
  destruct (fteid_made 5 tu uip 2 ltac:(lia) Hu Ou ltac:(lia)) as (s5u & U1 & U2 & U3 & U4 & U5 & U6 & U7 & U8).
  set (cause := new_cause g2 16 0 0 0 None) in *. set (e := new_ebi g2 ebi) in *. set (ch := new_charging_id g2 0) in *.
  assert (He : N.land ebi 15 = ebi mod 16) by (change 15 with (N.ones 4); rewrite N.land_ones; reflexivity).
  assert (We : wf2 g2 e).
  { unfold e, new_ebi. rewrite He. pose proof (N.mod_lt ebi 16 ltac:(lia)). apply wf2_plain; try reflexivity; try lia. constructor; [change (ebi mod 16 < 256); lia|constructor]. }
  assert (Wc : wf2 g2 cause) by (apply wf2_plain; try reflexivity; try lia; repeat constructor; lia).
  assert (Wh : wf2 g2 ch) by (apply wf2_plain; try reflexivity; try lia; repeat constructor; lia).
  set (cies := [Some cause; Some e; Some s5u; Some ch]) in *.
  assert (Lu : len (wire2 g2 s5u) = 13%nat). { rewrite len_wire. destruct s5u as [ty l ins p c]. cbn [i2_type i2_children i2_payload] in *. subst. cbn. rewrite U6. reflexivity. }
  assert (Lc : len (wire2 g2 s5c) = 13%nat). { rewrite len_wire. destruct s5c as [ty l ins p c]. cbn [i2_type i2_children i2_payload] in *. subst. cbn. rewrite C6. reflexivity. }
  assert (Lx : len (flat_map (wire2 g2) (nonnil cies)) = 32%nat).
  { cbn [cies nonnil flat_map app]. rewrite !app_length, Lu. reflexivity. }
  assert (Fx : fits g2 cies).
  { split; [cbn [cies nonnil flat_map app]; repeat (apply Forall_cons; [assumption|]); apply Forall_nil|]. split; [rewrite Lx; lia|discriminate]. }
  destruct (new_bears g2 cies eq_refl Fx) as (ctx & X1 & X).
  pose proof (C55_contexts_read g2 cies ctx eq_refl Fx X) as (R1 & R2 & _ & R4 & _).
  destruct X as (X2 & X3 & _ & X4 & (xb & X5 & _) & X6).
  assert (X7 : i2_inst ctx = 0). { unfold new_bearer_context in X1. rewrite new_grouped_ok in X1. injection X1 as <-. reflexivity. }
  assert (Lctx : len (wire2 g2 ctx) = 36%nat).
  { destruct ctx as [ty l ins p c]. cbn [i2_type i2_children] in *. subst ty c. cbn [wire2]. change (g2 93) with true. cbv iota.
    rewrite ?app_length. fold (wire2 g2). rewrite Lx. reflexivity. }
  (* the request's TEID *)
  assert (Hsgw : last_teid 6 cs teid < 4294967296).
  { destruct Ha as (_ & _ & _ & _ & _ & _ & _ & (i & r & F & Et) & (c & q & G & Ec) & _).
    assert (T0 : teid < 4294967296). { refine (teid_32 i teid (wf2_payload_ok g2 i (Hw "SenderFTEIDC" i _)) Et). rewrite F. left. reflexivity. }
    assert (Wcs : Forall (wf2 g2) cs). { rewrite <- Ec. apply wf2_children. apply (Hw "BearerContextsToBeCreated"). rewrite G. left. reflexivity. }
    clear - T0 Wcs. revert teid T0. induction Wcs as [|c r W _ IH]; intros t Ht; [exact Ht|]. cbn [last_teid]. apply IH.
    destruct (i2_type c =? 87); [|exact Ht]. destruct (acc_if_type c) as [x| |]; try exact Ht. destruct (x =? 6); [|exact Ht].
    destruct (acc_teid c) as [v| |] eqn:V; try exact Ht. exact (teid_32 c v (wf2_payload_ok g2 c W) V). }
  unfold pgw_create. rewrite K1. cbn [bind]. rewrite K2, P1. cbn [bind]. rewrite C1, U1. cbn [bind]. rewrite K4, P2. cbn [bind].
  fold cause e ch. fold cies. rewrite X1. cbn [bind].
  set (paa := IE2 79 5 0 [1; 10; 10; 10; k] []) in *. set (apn := new_uint8 g2 127 2) in *.
  assert (Wp : wf2 g2 paa) by (apply wf2_plain; try reflexivity; repeat (apply Forall_cons; [unfold is_byte; lia|]); apply Forall_nil).
  assert (Wa : wf2 g2 apn) by (apply wf2_plain; try reflexivity; try lia; repeat constructor; lia).
  destruct (fqcsid_made cip Oc) as (f & F1 & F2 & F3 & F4 & F5 & F6).
  set (o := if has m "SGWFQCSID" then Some f else None).
  destruct (csrsp_answer cause s5c paa apn ctx o (last_teid 6 cs teid) m eq_refl eq_refl C3 C4 eq_refl eq_refl eq_refl eq_refl X3 X7) as (r & raw & a & A1 & A2 & A3 & A4 & A5 & A6 & A7 & A8).
  { intros f' E. unfold o in E. destruct (has m "SGWFQCSID"); [|discriminate]. injection E as <-. now split. }
  { unfold o. destruct (has m "SGWFQCSID"); cbn [nonnil flat_map app]; repeat (apply Forall_cons; [assumption|]); apply Forall_nil. }
  { unfold o. destruct (has m "SGWFQCSID"); cbn [nonnil flat_map app]; rewrite !app_length, Lc, Lctx, ?(len_wire g2 f), ?F5; reflexivity. }
  { exact Hsgw. } { exact Hs. }
  rewrite A1. cbn [bind].
  match type of A2 with respond_bytes _ ?x _ = _ => set (rr := x) in * end.
  assert (Q : (if has m "SGWFQCSID" then do f0 <- new_fqcsid g2 (NodeIP cip) [1];
                 Ok (Msg (m_hdr r) (fset (m_fs r) "PGWFQCSID" (match f0 with Some i => [Some i] | None => [] end)))
               else Ok r) = Ok rr).
  { unfold rr, o. destruct (has m "SGWFQCSID"); [rewrite F1; reflexivity|reflexivity]. }
  clearbody rr.
  rewrite Q. cbn [bind]. rewrite C8, U8. cbn [must bind]. rewrite A2. cbn [bind add_teid set_s s_teids s_imsi].
  rewrite !aget_aput. cbn [N.eqb Pos.eqb]. rewrite K2. destruct (known_imsi k) as [|x y] eqn:Ek; [contradiction P4; reflexivity|].
  eexists. split; [reflexivity|]. cbn [pd_sent pd_session pd_teid set_s add_teid s_imsi s_active s_teids].
  rewrite !aget_aput. cbn [N.eqb Pos.eqb]. split; [|repeat split; assumption].
  destruct (csrsp_fields cause s5c paa apn ctx) as (G1 & G2 & G3 & G4 & G5 & G6 & G7).
  assert (G : forall fld, fld <> "PGWFQCSID" -> fget (m_fs a) fld = fget (csrsp_of cause s5c paa apn ctx) fld).
  { intros fld Hf. rewrite A6. unfold o. destruct (has m "SGWFQCSID"); [|reflexivity]. apply fget_fset_neq. congruence. }
  split; [exact A7|]. split.
  { etransitivity; [exact A8|]. clear - Lc Lctx F5. unfold o. destruct (has m "SGWFQCSID"); cbn [nonnil flat_map app]; rewrite !app_length, Lc, Lctx, ?(len_wire g2 f), ?F5; apply Nat.leb_le; reflexivity. }
  exists a. split; [exact A3|]. split; [exact A4|]. split; [exact A5|].
  assert (Y : forall fld i A (rd : ie2 -> res A) v, fld <> "PGWFQCSID" -> fget (csrsp_of cause s5c paa apn ctx) fld = [Some i] -> rd i = Ok v -> reads a fld rd v).
  { intros fld i A rd v Hf Hi Hr. exists i, []. rewrite (G fld Hf). now split. }
  split; [apply (Y "Cause" cause); [discriminate|exact G1|reflexivity]|].
  split; [apply (Y "PGWS5S8FTEIDC" s5c); [discriminate|exact G2|exact C7]|].
  split; [apply (Y "PAA" paa); [discriminate|exact G3|exact P5]|].
  split; [apply (Y "APNRestriction" apn); [discriminate|exact G4|reflexivity]|].
  split; [apply (Y "BearerContextsCreated" ctx); [discriminate|exact G5|rewrite R4; reflexivity]|].
  split; [apply (Y "BearerContextsCreated" ctx); [discriminate|exact G5|]|].
  { rewrite R1. cbn [cies first_of]. change (i2_type cause =? 73) with false. change (i2_type e =? 73) with true. cbv iota. cbn [asks].
    unfold e, new_ebi. rewrite He, K3. reflexivity. }
  split; [apply (Y "BearerContextsCreated" ctx); [discriminate|exact G5|]|].
  { rewrite R2. cbn [cies first_of]. change (i2_type cause =? 94) with false. change (i2_type e =? 94) with false. rewrite U3. reflexivity. }
  split.
  { exists ctx, s5u. split; [rewrite G by discriminate; exact G5|]. split; [rewrite X4, <- K3; reflexivity|]. split; [unfold i2_instance; rewrite U4; reflexivity|exact U7]. }
  rewrite A6. unfold o. destruct (has m "SGWFQCSID"); [|exact G6]. exists f, []. rewrite A6. unfold o. rewrite G7. now split.
Qed.
Print Assumptions C75_pgw_answers.

(** ... and to no other request *)
Lemma subscriber_known imsi ip : subscriber_ip imsi = Ok ip -> exists k, In k [1; 2; 3; 4; 5] /\ imsi = known_imsi k.
Proof.
  unfold subscriber_ip. destruct (find _ subscribers) as [[a b]|] eqn:F; [|discriminate]. intros _. apply find_some in F. destruct F as [F E].
  apply bytes_eqb_eq in E. cbn [fst] in E. subst a. unfold subscribers in F. apply in_map_iff in F as (k & E & K). injection E as <- _. exists k. now split.
Qed.
Theorem C75_pgw_answers_only : forall m peer tc tu cip uip r, pgw_create m peer tc tu cip uip = Ok r -> exists k cs teid, acceptable m k cs teid.
Proof.
  intros m peer tc tu cip uip r H. unfold pgw_create in H. apply bind_ok_inv in H as ([ebi s] & K & H). apply bind_ok_inv in H as (ip & I & _).
  destruct (subscriber_known _ _ I) as (k & Hk & Ek). destruct (keep_ok _ _ _ K) as (teid & cs & H1 & H2 & H3 & H4 & H5 & H6 & H7 & H8 & H9 & _).
  cbn [snd] in H1. rewrite Ek in H1. exists k, cs, teid. exact (conj Hk (conj H1 (conj H2 (conj H3 (conj H4 (conj H5 (conj H6 (conj H7 (conj H8 H9))))))))).
Qed.
Print Assumptions C75_pgw_answers_only.

(** What the session keeps of the request besides *)
Lemma context_keeps cs : forall e s x, read_context false cs e s = Ok x ->
  s_peer (snd x) = s_peer s /\ s_msisdn (snd x) = s_msisdn s /\ s_imei (snd x) = s_imei s /\ s_mcc (snd x) = s_mcc s /\ s_mnc (snd x) = s_mnc s /\ s_rat (snd x) = s_rat s /\
  forall it, aget (s_teids (snd x)) it = match aget (s_teids s) it with Some t => Some (last_teid it cs t)
                                         | None => if existsb (fun c => (i2_type c =? 87) && match acc_if_type c with Ok k => k =? it | _ => false end) cs then Some (last_teid it cs 0) else None end.
Proof.
  induction cs as [|c r IH]; intros e s x H.
  - injection H as <-. repeat (split; [reflexivity|]). intros it. cbn. destruct (aget _ it); reflexivity.
  - cbn [read_context] in H. cbn [last_teid existsb]. destruct (N.eqb_spec (i2_type c) 73) as [E|E].
    + apply bind_ok_inv in H as (v & V & H). apply IH in H as (A1 & A2 & A3 & A4 & A5 & A6 & A7). rewrite E. cbn [N.eqb Pos.eqb andb orb]. repeat (split; [assumption|]). exact A7.
    + destruct (N.eqb_spec (i2_type c) 87) as [F|F].
      * cbn [andb] in *. apply bind_ok_inv in H as (k & Hk & H). apply bind_ok_inv in H as (t & Ht & H). apply IH in H as (A1 & A2 & A3 & A4 & A5 & A6 & A7).
        repeat (split; [assumption|]). intros it. rewrite A7, Hk, Ht. cbn [add_teid set_s s_teids]. rewrite aget_aput. destruct (k =? it); cbn [orb]; [destruct (aget (s_teids s) it)|]; reflexivity.
      * cbn [andb orb]. apply IH in H as (A1 & A2 & A3 & A4 & A5 & A6 & A7). repeat (split; [assumption|]). exact A7.
Qed.
(** the mobile network code is kept, the mobile country code is not *)
Theorem C75_pgw_keeps : forall m peer tc tu cip uip r, pgw_create m peer tc tu cip uip = Ok r -> let s := pd_session r in
  s_peer s = peer /\ reads m "IMSI" acc_imsi (s_imsi s) /\ reads m "MSISDN" acc_msisdn (s_msisdn s) /\ reads m "MEI" acc_mei (s_imei s) /\
  (exists mcc, reads m "ServingNetwork" acc_mcc_mnc (mcc, s_mnc s)) /\ s_mcc s = [] /\ reads m "RATType" (acc_u8 g2 82) (s_rat s) /\
  exists cs teid, context m cs /\ reads m "SenderFTEIDC" acc_teid teid /\
    forall it, it <> 5 -> it <> 6 -> it <> 7 -> aget (s_teids s) it = if existsb (fun c => (i2_type c =? 87) && match acc_if_type c with Ok k => k =? it | _ => false end) cs then Some (last_teid it cs 0) else None.
Proof.
  intros m peer tc tu cip uip r H. cbv zeta. unfold pgw_create in H. apply bind_ok_inv in H as ([ebi s] & K & H). do 3 apply bind_ok_inv in H as (? & _ & H).
  destruct (aget (s_teids s) 6) as [g|] eqn:G; [|discriminate]. do 4 apply bind_ok_inv in H as (? & _ & H).
  apply bind_ok_inv in H as (c & _ & H). apply bind_ok_inv in H as (u & _ & H). cbv zeta in H. apply bind_ok_inv in H as (raw & _ & H). cbn [add_teid set_s s_teids s_imsi] in H.
  destruct (aget _ 7); [|discriminate]. destruct (s_imsi s) eqn:Ei; [discriminate|]. injection H as <-. cbn [pd_session set_s s_peer s_imsi s_msisdn s_imei s_mcc s_mnc s_rat s_teids].
  unfold pgw_keep in K. do 7 (let v := fresh "v" in let V := fresh "V" in apply bind_ok_inv in K as (v & V & K); apply needs_ok in V).
  apply needs_ok in K. destruct K as (cx & q & F & K). destruct (context_keeps _ _ _ _ K) as (A1 & A2 & A3 & A4 & A5 & A6 & A7).
  destruct (context_ok _ _ _ _ K) as (_ & _ & A0 & _). cbn [snd s_peer s_imsi s_msisdn s_imei s_mcc s_mnc s_rat s_teids] in *.
  rewrite <- Ei, A0, A1, A2, A3, A4, A5, A6. split; [reflexivity|]. split; [exact V|]. split; [exact V0|]. split; [exact V1|].
  split; [exists (fst v3); destruct v3; exact V3|]. split; [reflexivity|]. split; [exact V4|].
  exists (i2_children cx), v5. split; [exists cx, q; now split|]. split; [exact V5|]. intros it N5 N6 N7. rewrite !aget_aput.
  rewrite !(proj2 (N.eqb_neq _ _)) by congruence. rewrite A7. cbn [aget]. rewrite (proj2 (N.eqb_neq _ _)) by congruence. reflexivity.
Qed.
Print Assumptions C75_pgw_keeps.
