(** The three GTPv2 messages whose size, layout and round trip do not hold without
    conditions: CreateSessionRequest, CreateBearerResponse and ContextResponse.  Each is
    compared with a repaired description for which the general theorems hold; the two agree
    on the messages and IE lists described by the conditions of the theorems. *)
From Coq Require Import String Permutation Lia.
From Verif Require Import Base BaseLemmas V2IE V2IESpec V2IEProofs V2Header V2HeaderProofs
  MsgModel MsgProofs MsgProofs2 MsgProofs3 GenericMsg MsgSpec Msgs2Gen V2Msg V2MsgProofs.
Open Scope string_scope.
Open Scope N_scope.
Open Scope list_scope.

(** ** Two tables that treat an IE alike while field [u] is nil *)
Fixpoint act_eqb (a b : act) : bool :=
  match a, b with
  | ASet f, ASet f' | AApp f, AApp f' => String.eqb f f'
  | AIfNil f y n, AIfNil f' y' n' => String.eqb f f' && act_eqb y y' && act_eqb n n'
  | ANop, ANop => true
  | _, _ => false
  end.
Fixpoint act_fix (u : string) (a : act) : act :=
  match a with
  | AIfNil f y n => if String.eqb f u then act_fix u y else AIfNil f (act_fix u y) (act_fix u n)
  | _ => a
  end.
Fixpoint avoids (u : string) (a : act) : bool :=
  match a with
  | ASet f | AApp f => negb (String.eqb f u)
  | AIfNil f y n => negb (String.eqb f u) && avoids u y && avoids u n
  | AInst _ _ => false
  | ANop => true
  end.
Definition act_of (t : table) (k : N) : act := assoc_act (t_cases t) (t_default t) k.
Definition alike (u : string) (t t' : table) (k n : N) : bool :=
  let a := act_fix u (resolve (act_of t k) n) in act_eqb a (resolve (act_of t' k) n) && avoids u a.

Lemma act_eqb_eq a b : act_eqb a b = true -> a = b.
Proof.
  revert b. induction a as [f|f|cs d _ _|f y n Hy Hn|] using act_ind'; intros [f'|f'|cs' d'|f' y' n'|] H; cbn [act_eqb] in H; try discriminate; try reflexivity.
  - apply String.eqb_eq in H. subst; reflexivity.
  - apply String.eqb_eq in H. subst; reflexivity.
  - rewrite !andb_true_iff in H. destruct H as [[H1 H2] H3]. apply String.eqb_eq in H1. apply Hy in H2. apply Hn in H3. subst; reflexivity.
Qed.
Section Acts.
Context {I : Type} (io : ieops I).
Notation fmap := (@MsgModel.fmap I).
Lemma run_resolve a i (m : fmap) : run_act io (resolve a (io_inst io i)) i m = run_act io a i m.
Proof.
  revert m. induction a as [f|f|cs d Hcs Hd|f y n Hy Hn|] using act_ind'; intros m; cbn [resolve run_act]; try reflexivity.
  - induction Hcs as [|[x a'] r Hx Hr IH]; [apply Hd|]. destruct (x =? io_inst io i); [apply Hx|exact IH].
  - destruct (fget m f); [apply Hy|apply Hn].
Qed.
Lemma run_fix u a i (m : fmap) : fget m u = [] -> run_act io (act_fix u a) i m = run_act io a i m.
Proof.
  intros Hu. induction a as [f|f|cs d _ _|f y n Hy Hn|] using act_ind'; cbn [act_fix run_act]; try reflexivity.
  destruct (String.eqb_spec f u) as [->|Hf].
  - rewrite Hu. exact Hy.
  - cbn [run_act]. destruct (fget m f); assumption.
Qed.
Lemma fget_other (m : fmap) f u v : f <> u -> fget (fset m f v) u = fget m u.
Proof.
  intros Hf. induction m as [|[k w] r IH]; [reflexivity|]. cbn [fset].
  destruct (String.eqb_spec k f) as [->|Hk]; cbn [fget].
  - destruct (String.eqb_spec f u); [contradiction|reflexivity].
  - destruct (String.eqb k u); [reflexivity|exact IH].
Qed.
Lemma run_avoids u a i (m : fmap) : avoids u a = true -> fget (run_act io a i m) u = fget m u.
Proof.
  induction a as [f|f|cs d _ _|f y n Hy Hn|] using act_ind'; cbn [avoids run_act]; intros H; try reflexivity; try discriminate.
  - apply fget_other. intros ->. rewrite String.eqb_refl in H. discriminate.
  - apply fget_other. intros ->. rewrite String.eqb_refl in H. discriminate.
  - rewrite !andb_true_iff in H. destruct H as [[_ H2] H3]. destruct (fget m f); auto.
Qed.
Lemma run_alike u t t' i (m : fmap) : alike u t t' (io_type io i) (io_inst io i) = true -> fget m u = [] ->
  run_act io (act_of t (io_type io i)) i m = run_act io (act_of t' (io_type io i)) i m /\
  fget (run_act io (act_of t (io_type io i)) i m) u = [].
Proof.
  unfold alike. cbv zeta. rewrite andb_true_iff. intros [H1 H2] Hu. apply act_eqb_eq in H1.
  set (a := act_of t _) in *. set (a' := act_of t' _) in *. clearbody a a'. split.
  - rewrite <- (run_resolve a'), <- H1, run_fix by exact Hu. symmetry. apply run_resolve.
  - rewrite <- (run_resolve a), <- (run_fix u) by exact Hu. rewrite run_avoids by exact H2. exact Hu.
Qed.
Lemma table_alike u t t' ies : t_nilskip t = t_nilskip t' ->
  Forall (fun i => alike u t t' (io_type io i) (io_inst io i) = true) (nonnil ies) ->
  forall m, fget m u = [] -> run_table io t ies m = run_table io t' ies m /\
    (forall m', run_table io t ies m = Ok m' -> fget m' u = []).
Proof.
  intros Hs. induction ies as [|[i|] r IH]; intros Hf m Hu; cbn [run_table].
  - split; [reflexivity|]. intros m' [= <-]. exact Hu.
  - cbn [nonnil flat_map app] in Hf. apply Forall_cons_iff in Hf. destruct Hf as [Hi Hr].
    destruct (run_alike u t t' i m Hi Hu) as [A1 A2]. unfold act_of in A1, A2. rewrite <- A1. apply IH; assumption.
  - rewrite <- Hs. destruct (t_nilskip t); [apply IH; assumption|]. split; [reflexivity|discriminate].
Qed.
Lemma fget_fempty d u : fget (@fempty I d) u = [].
Proof.
  unfold fempty. induction (md_fields d) as [|[k x] r IH]; [reflexivity|]. cbn [map fst fget].
  destruct (String.eqb k u); [reflexivity|exact IH].
Qed.
(** a field no case of the table writes *)
Lemma table_avoids u t ies m m' : Forall (fun i => avoids u (resolve (act_of t (io_type io i)) (io_inst io i)) = true) (nonnil ies) ->
  run_table io t ies m = Ok m' -> fget m' u = fget m u.
Proof.
  revert m. induction ies as [|[i|] r IH]; intros m Hf; cbn [run_table].
  - intros [= <-]. reflexivity.
  - cbn [nonnil flat_map app] in Hf. apply Forall_cons_iff in Hf. destruct Hf as [Hi Hr]. intros E.
    rewrite (IH _ Hr E). fold (act_of t (io_type io i)). rewrite <- run_resolve. apply run_avoids, Hi.
  - destruct (t_nilskip t); [apply IH; assumption|discriminate].
Qed.

(** ** Steps of MarshalTo and MarshalLen *)
Lemma mto_steps_app ss ss' (m : fmap) off p :
  mto_steps io (ss ++ ss') m off p = (do x <- mto_steps io ss m off p; mto_steps io ss' m (snd x) (fst x)).
Proof.
  revert off p. induction ss as [|s r IH]; intros off p; cbn [app mto_steps bind fst snd]; [reflexivity|].
  destruct (mto_step io s m off p) as [[p' off']| |]; cbn [bind]; [apply IH|reflexivity|reflexivity].
Qed.
Lemma mto_steps_empty ss (m : fmap) off p : Forall (fun s => fget m (step_field s) = []) ss -> mto_steps io ss m off p = Ok (p, off).
Proof.
  intros H. induction H as [|s r Hs _ IH]; [reflexivity|]. cbn [mto_steps].
  replace (mto_step io s m off p) with (Ok (p, off)); [cbn [bind]; exact IH|].
  destruct s as [f a|f k a]; cbn [step_field] in Hs; cbn [mto_step]; rewrite Hs; reflexivity.
Qed.
Lemma len_steps_app ss ss' (m : fmap) :
  len_steps io (ss ++ ss') m = (do a <- len_steps io ss m; do b <- len_steps io ss' m; Ok (a + b)%nat).
Proof.
  induction ss as [|s r IH]; cbn [app len_steps bind].
  - destruct (len_steps io ss' m); reflexivity.
  - destruct (len_step io s m) as [a| |]; cbn [bind]; [|reflexivity|reflexivity]. rewrite IH.
    destruct (len_steps io r m) as [x| |]; cbn [bind]; [|reflexivity|reflexivity].
    destruct (len_steps io ss' m) as [y| |]; cbn [bind]; [|reflexivity|reflexivity]. f_equal. lia.
Qed.
Lemma len_steps_empty ss (m : fmap) : Forall (fun s => fget m (lstep_field s) = []) ss -> len_steps io ss m = Ok O.
Proof.
  intros H. induction H as [|s r Hs _ IH]; [reflexivity|]. cbn [len_steps].
  replace (len_step io s m) with (@Ok nat O); [cbn [bind]; rewrite IH; reflexivity|].
  destruct s as [f|f k]; cbn [lstep_field] in Hs; cbn [len_step]; rewrite Hs; reflexivity.
Qed.
Definition written (r : res (bytes * nat)) : res bytes := do x <- r; Ok (fst x).
(** the offset behind the last IE does not matter *)
Lemma last_advance pre f l k a (m : fmap) off p : fget m f = [] \/ fget m l = [] ->
  written (mto_steps io (pre ++ [MSingle f false; MList l k a]) m off p) =
  written (mto_steps io (pre ++ [MSingle f true; MList l k a]) m off p).
Proof.
  intros H. rewrite !mto_steps_app. destruct (mto_steps io pre m off p) as [[p' off']| |]; cbn [bind fst snd]; [|reflexivity|reflexivity].
  cbn [mto_steps mto_step]. destruct H as [H|H]; rewrite H.
  - reflexivity.
  - destruct (fget m f) as [|[i|] r]; [reflexivity| |reflexivity].
    unfold mto_one. destruct (on_slice_from p' off' (io_mto io i)); reflexivity.
Qed.
End Acts.

(** ** A description and its repair *)
Section Repair.
Context (g : N -> bool) (d d' : mdesc).
Context (Hf : md_fields d = md_fields d').

Context (Hm : md_min d = md_min d').
Context (Hso : md_soft d = md_soft d').
Context (Hch : md_check d = md_check d').
Context (Hre : md_reset d = md_reset d').
Context (Hsu : md_sub d = md_sub d').

(** the two write the same message *)
Definition same_marshal (fs : @fmap ie2) : Prop :=
  len_steps (io2 g) (md_lens d) fs = len_steps (io2 g) (md_lens d') fs /\
  forall off p, written (mto_steps (io2 g) (md_steps d) fs off p) = written (mto_steps (io2 g) (md_steps d') fs off p).

Lemma same_len m : same_marshal (m_fs m) -> v2_len g d m = v2_len g d' m.
Proof. intros [H _]. unfold v2_len, msg_mlen. rewrite H. reflexivity. Qed.
Lemma same_mto m b : same_marshal (m_fs m) -> v2_mto g d m b = v2_mto g d' m b.
Proof.
  intros H. pose proof (same_len m H) as E1. destruct H as [Hl Hs].
  unfold v2_mto, msg_mto. fold (v2_len g d m) (v2_len g d' m). rewrite E1.
  destruct (v2_len g d' m) as [n0| |]; cbn [bind]; [|reflexivity|reflexivity]. rewrite Hch, Hre.
  destruct (md_check d' && (len b <? n0)%nat)%bool; [reflexivity|]. set (h1 := if md_reset d' then _ else _). cbv zeta.
  replace (msg_mlen (io2 g) ho2 d (Msg h1 (m_fs m))) with (msg_mlen (io2 g) ho2 d' (Msg h1 (m_fs m))).
  2:{ unfold msg_mlen. cbn [m_fs]. rewrite Hl. reflexivity. }
  destruct (msg_mlen (io2 g) ho2 d' (Msg h1 (m_fs m))) as [n| |]; cbn [bind]; [|reflexivity|reflexivity].
  destruct (go_make (Z.of_nat n - Z.of_nat (ho_mlen ho2 h1))) as [p| |]; cbn [bind]; [|reflexivity|reflexivity].
  specialize (Hs O p). unfold written in Hs.
  destruct (mto_steps (io2 g) (md_steps d) (m_fs m) 0 p) as [[p1 o1]|e|], (mto_steps (io2 g) (md_steps d') (m_fs m) 0 p) as [[p2 o2]|e'|];
    cbn [bind fst] in Hs; try discriminate; cbn [bind fst]; [injection Hs as ->; reflexivity|injection Hs as ->; reflexivity|reflexivity].
Qed.
Lemma same_marshals m : same_marshal (m_fs m) -> v2_marshal g d m = v2_marshal g d' m.
Proof.
  intros H. unfold v2_marshal, msg_marshal. fold (v2_len g d m) (v2_len g d' m). rewrite (same_len m H).
  destruct (v2_len g d' m) as [n| |]; cbn [bind]; [apply (same_mto m _ H)|reflexivity|reflexivity].
Qed.

Definition same_parse : Prop := forall l, Forall (wf2 g) l ->
  run_table (io2 g) (md_unm d) (map Some l) (fempty d) = run_table (io2 g) (md_unm d') (map Some l) (fempty d').
Lemma same_parse_as b : bytes_ok b -> same_parse -> v2_parse_as g d b = v2_parse_as g d' b.
Proof.
  intros Hb H. unfold v2_parse_as, msg_parse. destruct (ho_parse ho2 b) as [h| |] eqn:Eh; cbn [bind]; [|reflexivity|reflexivity].
  unfold fempty in *. rewrite Hm, Hf. destruct (len (ho_payload ho2 h) <? md_min d')%nat; [reflexivity|].
  destruct (io_multi (io2 g) (ho_payload ho2 h)) as [l|e|] eqn:El; [|rewrite Hso; reflexivity|reflexivity].
  rewrite <- Hf. rewrite Hf. unfold same_parse in H. unfold fempty in H. rewrite Hf in H. rewrite H; [reflexivity|].
  eapply v2_laws_multi; [exact El|]. apply (v2_laws_hdr b h Hb Eh).
Qed.

(** *** Size and layout *)
Theorem repair_layout m : fields_ok d' = true -> md_reset d' = true -> covers d' = true -> same_marshal (m_fs m) ->
  typed_fields d (m_fs m) -> Forall (wf2 g) (present (m_fs m)) -> h2_ok (m_hdr m) ->
  let l := ies_of (order_of d') (m_fs m) in Permutation l (present (m_fs m)) /\
  let h := m_hdr m in
  let n := (h2_base h + len (flat_map (wire2 g) l))%nat in
  v2_len g d m = Ok n /\
  exists w m1, v2_marshal g d m = Ok (w, m1) /\ len w = n /\ m_fs m1 = m_fs m /\
    (forall b, (n <= len b)%nat -> v2_mto g d m b = Ok (w ++ skipn n b, m1)) /\
    (N.of_nat n < 65540 ->
     w = v2_octets (h2_flags h) (h2_type h) (h2_teid h) (h2_seq h) (h2_spare h) (flat_map (wire2 g) l)).
Proof.
  intros D2 D3 D4 Hs Ht Hw Hh.
  assert (Ht' : typed_fields d' (m_fs m)) by (unfold typed_fields in *; rewrite <- Hf; exact Ht).
  destruct (v2_layout_of g d' m D2 D3 D4 Ht' Hw Hh) as (A & B & w & m1 & C1 & C2 & C3 & C4 & C5).
  cbv zeta. split; [exact A|]. rewrite (same_len m Hs). split; [exact B|]. exists w, m1.
  rewrite (same_marshals m Hs). split; [exact C1|]. split; [exact C2|]. split; [exact C3|]. split; [|exact C5].
  intros b Hb. rewrite (same_mto m b Hs). apply C4, Hb.
Qed.

(** *** Construct, marshal, parse *)
Lemma octets_ok f t te sq sp b : f < 256 -> t < 256 -> sp < 256 -> bytes_ok b -> bytes_ok (v2_octets f t te sq sp b).
Proof.
  intros H1 H2 H3 Hb. unfold v2_octets. cbv zeta. apply bytes_ok_app; [repeat constructor; assumption|]. apply bytes_ok_app; [apply enc16_ok|].
  apply bytes_ok_app; [destruct (N.testbit f 3); [apply enc32_ok|constructor]|]. apply bytes_ok_app; [apply enc24_ok|].
  apply bytes_ok_app; [repeat constructor; assumption|exact Hb].
Qed.
Theorem repair_roundtrip teid seq ies : In d all_msgs2 -> teid < 4294967296 -> seq < 16777216 ->
  desc_ok 4 d' = true -> new_ok d' = true -> covers d' = true -> md_reset d' = true -> Forall (wf2 g) (nonnil ies) ->
  run_table (io2 g) (md_new d) ies (fempty d) = run_table (io2 g) (md_new d') ies (fempty d') ->
  (forall fs, run_table (io2 g) (md_new d) ies (fempty d) = Ok fs -> len_steps (io2 g) (md_lens d) fs = len_steps (io2 g) (md_lens d') fs) ->
  same_parse ->
  exists m, v2_new g d teid seq ies = Ok m /\ typed_fields d (m_fs m) /\
    (same_marshal (m_fs m) -> forall n, v2_len g d m = Ok n -> (12 <= n)%nat -> N.of_nat n < 65536 ->
     exists b m1, v2_marshal g d m = Ok (b, m1) /\ len b = n /\
       v2_parse g b = Ok (d, m1) /\ m_fs m1 = m_fs m /\
       h2_seq (m_hdr m1) = seq /\ h2_get_teid (m_hdr m1) = (match md_ctor d with Ctor _ _ _ _ true => teid | _ => 0 end) /\
       ts29274 (h2_type (m_hdr m1)) = md_name d).
Proof.
  intros Hd Ht Hs D1 D5 D4 D3 Hw Hrun Hlen Hpar.
  assert (D2 : fields_ok d' = true) by (unfold desc_ok in D1; rewrite !andb_true_iff in D1; tauto).
  destruct (ctor2_all g d teid seq Hd Ht Hs) as (p & t & mt & has & E & Ho & Hp & Hty & Hsq & Hte & Hht & Hst & Hname).
  destruct (new_roundtrip _ ho2 _ _ (ie_laws2 g) _ _ _ _ _ _ hd_laws2 d' (ctor2 (md_ctor d) teid seq) ies D1 D5 Ho Hp Hw) as (m & M1 & S1 & S2 & S3 & M4 & M5 & M6).
  assert (M : v2_new g d teid seq ies = Ok m).
  { unfold v2_new, msg_new in *. rewrite Hrun. rewrite Hrun in Hlen.
    destruct (run_table (io2 g) (md_new d') ies (fempty d')) as [fs| |] eqn:Er; cbn [bind] in M1 |- *; [|discriminate|discriminate].
    rewrite <- M1. unfold msg_set_length, msg_mlen. cbn [m_fs m_hdr]. rewrite (Hlen fs eq_refl), Hsu. reflexivity. }
  exists m. split; [exact M|]. split.
  { apply shape_typed. rewrite Hf. exact S1. }
  intros Hsm n Hn H12 H16. rewrite (same_len m Hsm) in Hn.
  assert (En : n = (h2_base (ctor2 (md_ctor d) teid seq) + len (body (wire2 g) d' (m_fs m)))%nat).
  { unfold v2_len in Hn. rewrite M5 in Hn. injection Hn as Hn. symmetry. exact Hn. }
  rewrite <- En in M6. destruct (M6 H16 H12) as (b & m1 & B1 & B2 & B3 & B4 & B5).
  assert (Em1 : forall h, m_hdr m1 = h -> Msg h (m_fs m) = m1) by (intros h <-; rewrite <- B3; destruct m1; reflexivity).
  rewrite (Em1 _ eq_refl) in B5. rewrite M4 in B4.
  assert (Hty1 : h2_type (m_hdr m1) = mt) by (rewrite B4, <- Hty; reflexivity).
  assert (Hok : bytes_ok b).
  { assert (Hh : h2_ok (m_hdr m)). { rewrite M4. destruct Ho. constructor; assumption. }
    assert (Hin : Forall (wf2 g) (in_order (m_fs m) (order_of d'))) by (apply in_order_wf; exact S2).
    pose proof (in_order_present d' (m_fs m) D2 D4 (proj1 S1)) as Hperm.
    destruct (v2_layout_of g d' m D2 D3 D4) as (_ & Lw & w & m3 & W1 & W2 & _ & _ & W3);
      [exact S1|eapply Permutation_Forall; eassumption|exact Hh|].
    unfold v2_marshal in W1. rewrite B1 in W1. injection W1 as <- <-. rewrite W3.
    - destruct Hh. apply octets_ok; try assumption.
      change (ies_of (order_of d') (m_fs m)) with (in_order (m_fs m) (order_of d')). clear - Hin.
      induction Hin as [|i r Hi _ IH]; [constructor|]. cbn [flat_map]. apply Forall_app. split; [apply (wf_bytes_ok g), Hi|exact IH].
    - rewrite Lw in Hn. injection Hn as Hn. rewrite Hn. lia. }
  exists b, m1. rewrite (same_marshals m Hsm). split; [exact B1|]. split; [exact B2|]. split.
  { unfold v2_parse. pose proof (v2_parse_as_type g d' b m1 B5) as [Hb Hlb]. rewrite Hty1 in Hb.
    rewrite (proj2 (Nat.ltb_ge (len b) 2)) by lia. rewrite Hb. cbn [bind]. rewrite Hst.
    rewrite (same_parse_as b Hok Hpar). unfold v2_parse_as. rewrite B5. reflexivity. }
  split; [exact B3|]. split; [rewrite B4; exact Hsq|]. split.
  - rewrite E. unfold h2_get_teid. rewrite E in *.
    replace (h2_has_teid (m_hdr m1)) with (h2_has_teid (ctor2 (Ctor 2 p t mt has) teid seq)) by (rewrite B4; reflexivity).
    replace (h2_teid (m_hdr m1)) with (if has then teid else 0) by (rewrite B4; symmetry; exact Hte).
    rewrite Hht. destruct has; reflexivity.
  - rewrite Hty1. apply Hname.
Qed.

(** *** Parse, marshal, parse *)
Theorem repair_remarshal b m : bytes_ok b -> N.of_nat (len b) < 65536 -> v2_parse g b = Ok (d, m) ->
  desc_ok 4 d' = true -> covers d' = true -> md_reset d' = true -> same_parse -> same_marshal (m_fs m) ->
  (h2_has_teid (m_hdr m) = true \/ present (m_fs m) <> []) ->
  exists b' m1, v2_marshal g d m = Ok (b', m1) /\ v2_parse g b' = Ok (d, m1) /\ m_fs m1 = m_fs m /\
    (len b' <= len b)%nat /\
    h2_flags (m_hdr m1) = h2_flags (m_hdr m) /\ h2_type (m_hdr m1) = h2_type (m_hdr m) /\
    h2_teid (m_hdr m1) = h2_teid (m_hdr m) /\ h2_seq (m_hdr m1) = h2_seq (m_hdr m) /\
    h2_spare (m_hdr m1) = h2_spare (m_hdr m).
Proof.
  intros Hb Hlb Hp D1 D4 D3 Hpar Hsm Hne. destruct (v2_parse_parts g b d m Hp) as (t & E1 & Ed & E2 & Ep).
  rewrite (same_parse_as b Hb Hpar) in Ep.
  assert (D2 : fields_ok d' = true) by (unfold desc_ok in D1; rewrite !andb_true_iff in D1; tauto).
  destruct (fields_ok_parts d' D2) as (P1 & _).
  destruct (parse_parts _ ho2 _ _ (ie_laws2 g) 4 (wf2 g) d' b m D1 Ep (fun h l Hh Hl => v2_laws_multi g _ _ Hl (proj1 (v2_laws_hdr b h Hb Hh)))) as (Eh & S1 & S2 & S3).
  pose proof (parse_size (io2 g) ho2 (wire2 g) d' b m 4 D1 Ep (v2_laws_multi' g) (fun h Hh => proj1 (v2_laws_hdr b h Hb Hh))) as Hsz.
  assert (Hpl : (h2_base (m_hdr m) + len (ho_payload ho2 (m_hdr m)) <= len b)%nat).
  { cbn [ho2 ho_parse ho_payload] in *. apply h2_parse_inv in Eh; [|exact Hb]. destruct Eh as (_&_&_&_&_&_&_&_&_&_&q&Eq).
    rewrite Eq, app_length, h2_wire_len. unfold h2_mlen, h2_base. destruct (h2_has_teid (m_hdr m)); lia. }
  assert (Hperm := in_order_present d' (m_fs m) D2 D4 (proj1 S1)).
  assert (Hmin : (12 <= h2_base (m_hdr m) + len (body (wire2 g) d' (m_fs m)))%nat).
  { unfold h2_base. destruct (h2_has_teid (m_hdr m)); [lia|]. destruct Hne as [Hne|Hne]; [discriminate|].
    unfold body. destruct (in_order (m_fs m) (order_of d')) as [|i r].
    - apply Permutation_nil in Hperm. contradiction.
    - cbn [flat_map]. rewrite app_length, len_wire. pose proof (mlen_ge4 g i). lia. }
  destruct (remarshal _ ho2 _ _ (ie_laws2 g) _ _ _ _ _ _ hd_laws2 d' b m D1 D3 Ep (fun h Hh => proj2 (v2_laws_hdr b h Hb Hh)) S2)
    as (b' & m1 & B1 & B2 & B3 & B4 & B5).
  - cbn [ho2 ho_payload] in *. lia.
  - exact Hmin.
  - assert (Em1 : forall h, m_hdr m1 = h -> Msg h (m_fs m) = m1) by (intros h <-; rewrite <- B3; destruct m1; reflexivity).
    rewrite (Em1 _ eq_refl) in B5. exists b', m1. rewrite (same_marshals m Hsm).
    assert (Hh : h2_ok (m_hdr m)) by (apply (v2_laws_hdr b _ Hb Eh)).
    assert (Hok : bytes_ok b').
    { assert (Hin : Forall (wf2 g) (in_order (m_fs m) (order_of d'))) by (apply in_order_wf; exact S2).
      destruct (v2_layout_of g d' m D2 D3 D4) as (_ & Lw & w & m3 & W1 & W2 & _ & _ & W3);
        [exact S1|eapply Permutation_Forall; eassumption|exact Hh|].
      unfold v2_marshal in W1. rewrite B1 in W1. injection W1 as <- <-. rewrite W3.
      - destruct Hh. apply octets_ok; try assumption.
        change (ies_of (order_of d') (m_fs m)) with (in_order (m_fs m) (order_of d')). clear - Hin.
        induction Hin as [|i r Hi _ IH]; [constructor|]. cbn [flat_map]. apply Forall_app. split; [apply (wf_bytes_ok g), Hi|exact IH].
      - rewrite <- W2, B2. cbn [ho2 ho_payload] in *. lia. }
    split; [exact B1|]. split.
    { unfold v2_parse. destruct (v2_parse_as_type _ _ _ _ B5) as [Hb1 Hb2].
      rewrite (proj2 (Nat.ltb_ge (len b') 2)) by lia. rewrite Hb1. cbn [bind].
      assert (Et : h2_type (m_hdr m1) = t) by (rewrite B4, <- E2; reflexivity). rewrite Et, <- Ed.
      rewrite (same_parse_as b' Hok Hpar). unfold v2_parse_as. rewrite B5. reflexivity. }
    split; [exact B3|]. split; [cbn [ho2 ho_payload] in *; lia|].
    rewrite B4. repeat split; reflexivity.
Qed.
End Repair.

(** ** The three messages repaired *)
Definition advance (s : mstep) : mstep := match s with MSingle f _ => MSingle f true | MList f k _ => MList f k true end.
Definition repaired (d : mdesc) (new unm : table) (ss : list mstep) (ls : list lstep) : mdesc :=
  MDesc (md_name d) (md_ctor d) (md_fields d) new unm (md_min d) (md_soft d) (md_check d) (md_reset d) ss ls (md_sub d).
(** the private extension is followed by an advance of the offset *)
Definition csr : mdesc := repaired d_CreateSessionRequest (md_new d_CreateSessionRequest) (md_unm d_CreateSessionRequest)
  (map advance (md_steps d_CreateSessionRequest)) (md_lens d_CreateSessionRequest).
(** New drops the IEs UnmarshalBinary drops *)
Definition cbr : mdesc := repaired d_CreateBearerResponse (md_unm d_CreateBearerResponse) (md_unm d_CreateBearerResponse)
  (md_steps d_CreateBearerResponse) (md_lens d_CreateBearerResponse).
(** the three forgotten fields are written, and New and UnmarshalBinary put what they
    overlook into AdditionalIEs *)
Definition forgotten : list string :=
  ["MonitoringEventExtensionInformation"; "SubscribedAdditionalRRMPolicyIndex"; "AdditionalRRMPolicyIndexInUse"].
Definition fix_table (u : string) (t : table) : table :=
  Tbl (t_nilskip t) (map (fun p => (fst p, act_fix u (snd p))) (t_cases t)) (t_default t).
Definition ctx : mdesc := repaired d_ContextResponse (fix_table "UEMMContext" (md_unm d_ContextResponse)) (fix_table "UEMMContext" (md_unm d_ContextResponse))
  (md_steps d_ContextResponse ++ map (fun f => MSingle f true) forgotten) (md_lens d_ContextResponse ++ map LSingle forgotten).

Lemma csr_ok : (desc_ok 4 csr && new_ok csr && covers csr && md_reset csr)%bool = true. Proof. vm_compute. reflexivity. Qed.
Lemma cbr_ok : (desc_ok 4 cbr && new_ok cbr && covers cbr && md_reset cbr)%bool = true. Proof. vm_compute. reflexivity. Qed.
Lemma ctx_ok : (desc_ok 4 ctx && new_ok ctx && covers ctx && md_reset ctx)%bool = true. Proof. vm_compute. reflexivity. Qed.
Lemma ok_parts d : (desc_ok 4 d && new_ok d && covers d && md_reset d)%bool = true ->
  desc_ok 4 d = true /\ fields_ok d = true /\ new_ok d = true /\ covers d = true /\ md_reset d = true.
Proof.
  rewrite !andb_true_iff. intros [[[H1 H2] H3] H4]. repeat split; try assumption.
  unfold desc_ok in H1. rewrite !andb_true_iff in H1. tauto.
Qed.
Lemma csr_in : In d_CreateSessionRequest all_msgs2. Proof. unfold all_msgs2. repeat first [left; reflexivity|right]. Qed.
Lemma cbr_in : In d_CreateBearerResponse all_msgs2. Proof. unfold all_msgs2. repeat first [left; reflexivity|right]. Qed.
Lemma ctx_in : In d_ContextResponse all_msgs2. Proof. unfold all_msgs2. repeat first [left; reflexivity|right]. Qed.

(** *** CreateSessionRequest *)
Definition one_tail (fs : @fmap ie2) : Prop := fget fs "PrivateExtension" = [] \/ fget fs "AdditionalIEs" = [].
Lemma csr_steps : exists pre k a, md_steps d_CreateSessionRequest = pre ++ [MSingle "PrivateExtension" false; MList "AdditionalIEs" k a] /\
  md_steps csr = pre ++ [MSingle "PrivateExtension" true; MList "AdditionalIEs" k a].
Proof.
  exists (removelast (removelast (md_steps d_CreateSessionRequest))). eexists _, _. split; vm_compute; reflexivity.
Qed.
Lemma csr_marshal g fs : one_tail fs -> same_marshal g d_CreateSessionRequest csr fs.
Proof.
  intros H. split; [reflexivity|]. intros off p. destruct csr_steps as (pre & k & a & -> & ->). apply last_advance, H.
Qed.
Lemma csr_parse g : same_parse g d_CreateSessionRequest csr.
Proof. intros l _. reflexivity. Qed.

(** *** CreateBearerResponse: IEs the parser of the message keeps *)
Definition cbr_keeps (i : ie2) : Prop :=
  let t := i2_type i in let n := i2_instance i in
  (t = 126 -> n <= 1) /\ (t = 132 -> n <= 3) /\ (t = 169 -> n <= 1) /\ (t = 179 -> n = 1) /\ (t = 180 -> n <= 2).
Definition cbr_keepsb (t n : N) : bool :=
  ((negb (t =? 126) || (n <=? 1)) && (negb (t =? 132) || (n <=? 3)) && (negb (t =? 169) || (n <=? 1)) && (negb (t =? 179) || (n =? 1)) && (negb (t =? 180) || (n <=? 2)))%bool.
Definition imp (a b : bool) : bool := (negb a || b)%bool.
Definition everywhere (p : N -> N -> bool) : bool := forallb (fun t => forallb (p t) (below 16)) (below 256).
Lemma everywhere_ok p g i : everywhere p = true -> wf2 g i -> p (i2_type i) (i2_instance i) = true.
Proof.
  intros H Hi. unfold everywhere in H. rewrite forallb_forall in H.
  assert (Ht : i2_type i < 256) by (inversion Hi; subst; assumption).
  assert (Hn : i2_instance i < 16) by apply (il_inst _ _ _ (ie_laws2 g) i).
  specialize (H _ (below_complete 256 _ Ht)). rewrite forallb_forall in H. apply H, (below_complete 16), Hn.
Qed.
Lemma cbr_alike : everywhere (fun t n => imp (cbr_keepsb t n) (alike "" (md_new d_CreateBearerResponse) (md_new cbr) t n)) = true.
Proof. vm_compute. reflexivity. Qed.
Lemma imp_ok a b : imp a b = true -> a = true -> b = true.
Proof. unfold imp. now intros H ->. Qed.
Lemma cbr_keeps_b i : cbr_keeps i -> cbr_keepsb (i2_type i) (i2_instance i) = true.
Proof.
  unfold cbr_keeps, cbr_keepsb. cbv zeta. intros (A1 & A2 & A3 & A4 & A5). rewrite !andb_true_iff, !orb_true_iff, !negb_true_iff.
  repeat split.
  - destruct (N.eqb_spec (i2_type i) 126); [right; apply N.leb_le; auto|left; reflexivity].
  - destruct (N.eqb_spec (i2_type i) 132); [right; apply N.leb_le; auto|left; reflexivity].
  - destruct (N.eqb_spec (i2_type i) 169); [right; apply N.leb_le; auto|left; reflexivity].
  - destruct (N.eqb_spec (i2_type i) 179); [right; apply N.eqb_eq; auto|left; reflexivity].
  - destruct (N.eqb_spec (i2_type i) 180); [right; apply N.leb_le; auto|left; reflexivity].
Qed.
Lemma cbr_new g ies : Forall (wf2 g) (nonnil ies) -> Forall cbr_keeps (nonnil ies) ->
  run_table (io2 g) (md_new d_CreateBearerResponse) ies (fempty d_CreateBearerResponse) = run_table (io2 g) (md_new cbr) ies (fempty cbr).
Proof.
  intros Hw Hk. refine (proj1 (table_alike (io2 g) "" (md_new d_CreateBearerResponse) (md_new cbr) ies eq_refl _ (fempty d_CreateBearerResponse) (fget_fempty _ _))).
  rewrite Forall_forall in *. intros i Hi. apply (imp_ok _ _ (everywhere_ok _ g i cbr_alike (Hw i Hi))), cbr_keeps_b, Hk, Hi.
Qed.

(** *** ContextResponse: IEs New does not put into one of the three forgotten fields *)
Definition ctx_keeps (i : ie2) : Prop := i2_type i <> 206 /\ (i2_type i = 207 -> 1 < i2_instance i).
Definition ctx_keepsb (t n : N) : bool := (negb (t =? 206) && (negb (t =? 207) || (1 <? n)))%bool.
Lemma ctx_keeps_b i : ctx_keeps i -> ctx_keepsb (i2_type i) (i2_instance i) = true.
Proof.
  unfold ctx_keeps, ctx_keepsb. intros (A1 & A2). rewrite andb_true_iff, orb_true_iff, !negb_true_iff. split; [apply N.eqb_neq, A1|].
  destruct (N.eqb_spec (i2_type i) 207); [right; apply N.ltb_lt; auto|left; reflexivity].
Qed.
Lemma ctx_new_alike : everywhere (fun t n => imp (ctx_keepsb t n) (alike "UEMMContext" (md_new d_ContextResponse) (md_new ctx) t n
  && forallb (fun f => avoids f (resolve (act_of (md_new d_ContextResponse) t) n)) forgotten)%bool) = true.
Proof. vm_compute. reflexivity. Qed.
Lemma ctx_unm_alike : everywhere (fun t n => alike "UEMMContext" (md_unm d_ContextResponse) (md_unm ctx) t n
  && forallb (fun f => avoids f (resolve (act_of (md_unm d_ContextResponse) t) n)) forgotten)%bool = true.
Proof. vm_compute. reflexivity. Qed.
Definition none_forgotten (fs : @fmap ie2) : Prop := forall f, In f forgotten -> fget fs f = [].
Lemma ctx_new g ies : Forall (wf2 g) (nonnil ies) -> Forall ctx_keeps (nonnil ies) ->
  run_table (io2 g) (md_new d_ContextResponse) ies (fempty d_ContextResponse) = run_table (io2 g) (md_new ctx) ies (fempty ctx) /\
  (forall fs, run_table (io2 g) (md_new d_ContextResponse) ies (fempty d_ContextResponse) = Ok fs -> none_forgotten fs).
Proof.
  intros Hw Hk. rewrite Forall_forall in *.
  assert (G : forall i, In i (nonnil ies) -> alike "UEMMContext" (md_new d_ContextResponse) (md_new ctx) (i2_type i) (i2_instance i) = true /\
    forall f, In f forgotten -> avoids f (resolve (act_of (md_new d_ContextResponse) (i2_type i)) (i2_instance i)) = true).
  { intros i Hi. rewrite <- forallb_forall, <- andb_true_iff.
    apply (imp_ok _ _ (everywhere_ok _ g i ctx_new_alike (Hw i Hi))), ctx_keeps_b, Hk, Hi. }
  split.
  - refine (proj1 (table_alike (io2 g) "UEMMContext" (md_new d_ContextResponse) (md_new ctx) ies eq_refl _ (fempty d_ContextResponse) (fget_fempty _ _))).
    rewrite Forall_forall. intros i Hi. apply G, Hi.
  - intros fs E f Hf. transitivity (fget (@fempty ie2 d_ContextResponse) f); [|apply fget_fempty].
    apply (table_avoids (io2 g) f (md_new d_ContextResponse) ies); [|exact E]. apply Forall_forall. intros i Hi. apply (proj2 (G i Hi)), Hf.
Qed.
Lemma nonnil_some {A} (l : list A) : nonnil (map Some l) = l.
Proof. induction l as [|a r IH]; [reflexivity|]. cbn. f_equal. exact IH. Qed.
Lemma ctx_unm g l : Forall (wf2 g) l ->
  run_table (io2 g) (md_unm d_ContextResponse) (map Some l) (fempty d_ContextResponse) = run_table (io2 g) (md_unm ctx) (map Some l) (fempty ctx) /\
  (forall fs, run_table (io2 g) (md_unm d_ContextResponse) (map Some l) (fempty d_ContextResponse) = Ok fs -> none_forgotten fs).
Proof.
  intros Hw. rewrite Forall_forall in Hw.
  assert (G : forall i, In i l -> alike "UEMMContext" (md_unm d_ContextResponse) (md_unm ctx) (i2_type i) (i2_instance i) = true /\
    forall f, In f forgotten -> avoids f (resolve (act_of (md_unm d_ContextResponse) (i2_type i)) (i2_instance i)) = true).
  { intros i Hi. rewrite <- forallb_forall, <- andb_true_iff. apply (everywhere_ok _ g i ctx_unm_alike (Hw i Hi)). }
  split.
  - refine (proj1 (table_alike (io2 g) "UEMMContext" (md_unm d_ContextResponse) (md_unm ctx) (map Some l) eq_refl _ (fempty d_ContextResponse) (fget_fempty _ _))).
    rewrite nonnil_some, Forall_forall. intros i Hi. apply G, Hi.
  - intros fs E f Hf. transitivity (fget (@fempty ie2 d_ContextResponse) f); [|apply fget_fempty].
    apply (table_avoids (io2 g) f (md_unm d_ContextResponse) (map Some l)); [|exact E]. rewrite nonnil_some. apply Forall_forall. intros i Hi. apply (proj2 (G i Hi)), Hf.
Qed.
Lemma ctx_parse g : same_parse g d_ContextResponse ctx.
Proof. intros l Hl. apply (ctx_unm g l Hl). Qed.
Lemma ctx_lens g fs : none_forgotten fs -> len_steps (io2 g) (md_lens d_ContextResponse) fs = len_steps (io2 g) (md_lens ctx) fs.
Proof.
  intros H. change (md_lens ctx) with (md_lens d_ContextResponse ++ map LSingle forgotten). rewrite len_steps_app.
  rewrite (len_steps_empty (io2 g) (map LSingle forgotten) fs).
  - destruct (len_steps (io2 g) (md_lens d_ContextResponse) fs); cbn [bind]; [f_equal; lia|reflexivity|reflexivity].
  - rewrite Forall_forall. intros s Hs. apply in_map_iff in Hs. destruct Hs as (f & <- & Hf). apply H, Hf.
Qed.
Lemma ctx_marshal g fs : none_forgotten fs -> same_marshal g d_ContextResponse ctx fs.
Proof.
  intros H. split; [apply ctx_lens, H|]. intros off p.
  change (md_steps ctx) with (md_steps d_ContextResponse ++ map (fun f => MSingle f true) forgotten). rewrite mto_steps_app.
  destruct (mto_steps (io2 g) (md_steps d_ContextResponse) fs off p) as [[p' off']| |]; cbn [bind fst snd]; [|reflexivity|reflexivity].
  rewrite mto_steps_empty; [reflexivity|]. rewrite Forall_forall. intros s Hs. apply in_map_iff in Hs. destruct Hs as (f & <- & Hf). apply H, Hf.
Qed.
(** nothing Parse returns is in a forgotten field *)
Lemma ctx_parsed g b m : bytes_ok b -> v2_parse_as g d_ContextResponse b = Ok m -> none_forgotten (m_fs m).
Proof.
  intros Hb H. unfold v2_parse_as, msg_parse in H. apply bind_ok_inv in H. destruct H as (h & Eh & H).
  assert (Z : none_forgotten (fempty d_ContextResponse)) by (intros f _; apply fget_fempty).
  destruct (len (ho_payload ho2 h) <? md_min d_ContextResponse)%nat; [injection H as <-; exact Z|].
  destruct (io_multi (io2 g) (ho_payload ho2 h)) as [l|e|] eqn:El; [| |discriminate].
  - apply bind_ok_inv in H. destruct H as (fs & Er & H). injection H as <-. cbn [m_fs].
    refine (proj2 (ctx_unm g l _) fs Er). eapply v2_laws_multi; [exact El|]. apply (v2_laws_hdr b h Hb Eh).
  - destruct e; try discriminate.
Qed.
