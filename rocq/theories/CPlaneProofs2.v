(** What replaying a history gives, in the words of CSpec.v. *)
From Coq Require Import String Lia Permutation.
From Verif Require Import Base BaseLemmas Maps MapsProofs V2IE V2Header MsgModel V2Msg CPlane CSpec CPlaneProofs.
Open Scope N_scope.
Open Scope list_scope.

(** an event about another session, bearer or connection *)
Ltac other IH :=
  cbn; try exact IH;
  repeat match goal with
         | |- context [?x =? ?y] => destruct (x =? y) eqn:?; cbn
         end; try exact IH; try reflexivity.

Lemma sess_imsi s l : s_imsi (sess_of s l) = imsi_of s l.
Proof. induction l as [|e l IH]; [reflexivity|]. destruct e; other IH; destruct x; other IH. Qed.
Lemma sess_peer s l : s_peer (sess_of s l) = peer_of s l.
Proof. induction l as [|e l IH]; [reflexivity|]. destruct e; other IH; destruct x; other IH. Qed.
Lemma sess_active s l : s_active (sess_of s l) = active_of s l.
Proof. induction l as [|e l IH]; [reflexivity|]. destruct e; other IH; destruct x; other IH. Qed.
Lemma sess_teid s i l : aget (s_teids (sess_of s l)) i = teid_of s i l.
Proof.
  induction l as [|e l IH]; [reflexivity|]. destruct e; cbn -[aput adel sput sdel]; try exact IH.
  - destruct (s0 =? s); [reflexivity|exact IH].
  - destruct (s0 =? s); destruct x; cbn -[aput adel sput sdel]; try exact IH. rewrite aget_aput, (N.eqb_sym i). now destruct (ift =? i).
  - destruct (s0 =? s); exact IH.
  - destruct (s0 =? s); exact IH.
Qed.
Lemma sess_bearer s n l : (exists a im b, In (EvSession s a im b) l) ->
  sget (s_bearers (sess_of s l)) n = named s n l.
Proof.
  induction l as [|e l IH]; [intros (a & im & b & [])|]. intros (a & im & b & [->|H]).
  - cbn. rewrite N.eqb_refl. cbn. now rewrite bytes_eqb_sym.
  - assert (exists a im b, In (EvSession s a im b) l) as H' by eauto. specialize (IH H').
    destruct e; cbn -[aput adel sput sdel]; try exact IH.
    + destruct (s0 =? s); [|exact IH]. cbn. now rewrite bytes_eqb_sym.
    + destruct (s0 =? s); destruct x; cbn -[aput adel sput sdel]; try exact IH.
      * rewrite sget_sput, (bytes_eqb_sym n). now destruct (bytes_eqb name n).
      * rewrite sget_sdel, (bytes_eqb_sym n). now destruct (bytes_eqb name n).
    + destruct (s0 =? s); exact IH.
    + destruct (s0 =? s); exact IH.
Qed.
Lemma bear_ebi b l : b_ebi (bear_of b l) = ebi_of b l.
Proof. induction l as [|e l IH]; [reflexivity|]. destruct e; other IH; destruct x; other IH. Qed.
Lemma bear_in b l : b_in (bear_of b l) = in_of b l.
Proof. induction l as [|e l IH]; [reflexivity|]. destruct e; other IH; destruct x; other IH. Qed.
Lemma bear_out b l : b_out (bear_of b l) = out_of b l.
Proof. induction l as [|e l IH]; [reflexivity|]. destruct e; other IH; destruct x; other IH. Qed.
Lemma sess_keys s l : skeys_once (s_bearers (sess_of s l)).
Proof.
  induction l as [|e l IH]; [repeat constructor; intros []|]. destruct e; cbn -[aput adel sput sdel]; try exact IH; destruct (_ =? s); try exact IH.
  - repeat constructor. intros [].
  - destruct x; cbn -[aput adel sput sdel]; try exact IH; [now apply skeys_sput|now apply skeys_sdel].
Qed.

Section Conn.
Context (ift counter : N -> N).
Notation conn_of := (conn_of ift counter).

Lemma conn_valid c l : c_valid (conn_of c l) = validating c l.
Proof. induction l as [|e l IH]; [reflexivity|]. destruct e; other IH. Qed.
Lemma conn_closed c l : c_closed (conn_of c l) = closed_ev c l.
Proof. induction l as [|e l IH]; [reflexivity|]. destruct e; other IH. Qed.
Lemma conn_seq c l : c_seq (conn_of c l) = last_seq c l.
Proof. induction l as [|e l IH]; [reflexivity|]. destruct e; other IH. Qed.
Lemma conn_handler c t l : aget (c_handlers (conn_of c l)) t = handler_for c t l.
Proof.
  induction l as [|e l IH].
  - cbn. unfold handler_default. rewrite !(N.eqb_sym t).
    destruct (1 =? t); [reflexivity|]. destruct (2 =? t); [reflexivity|]. now destruct (3 =? t).
  - destruct e; cbn -[aput adel sput sdel]; try exact IH; try (destruct (_ =? c); exact IH).
    destruct (c0 =? c); [|exact IH]. cbn [c_handlers set_handlers andb]. rewrite aget_aput, (N.eqb_sym t).
    now destruct (typ =? t).
Qed.
Lemma conn_imsi c im l : sget (c_imsi (conn_of c l)) im = imsi_known c im l.
Proof.
  induction l as [|e l IH]; [reflexivity|].
  destruct e; cbn -[aput adel sput sdel]; try exact IH; try (destruct (_ =? c); exact IH).
  - destruct (c0 =? c); [|exact IH]. cbn [c_imsi set_imsis andb]. rewrite sget_sput, (bytes_eqb_sym im).
    now destruct (bytes_eqb imsi im).
  - destruct (c0 =? c); [|exact IH]. cbn [c_imsi set_imsis andb]. rewrite sget_sdel, (bytes_eqb_sym im).
    now destruct (bytes_eqb imsi im).
Qed.
Lemma conn_keys c l : keys_once (c_itei (conn_of c l)).
Proof.
  induction l as [|e l IH]; [constructor|].
  destruct e; cbn -[aput adel sput sdel]; try exact IH; try (destruct (_ =? c); try exact IH); cbn [c_itei set_iteis];
    try (now apply keys_aput); now apply filter_keys.
Qed.
Lemma conn_skeys c l : skeys_once (c_imsi (conn_of c l)).
Proof.
  induction l as [|e l IH]; [constructor|].
  destruct e; cbn -[aput adel sput sdel]; try exact IH; try (destruct (_ =? c); try exact IH); cbn [c_imsi set_imsis];
    [now apply skeys_sput|now apply skeys_sdel].
Qed.
Definition as_known (o : option (option N)) : known :=
  match o with Some (Some s) => Registered s | Some None => Reserved | None => Unknown end.
Lemma conn_teid c t l : as_known (aget (c_itei (conn_of c l)) t) = teid_known c t l.
Proof.
  induction l as [|e l IH]; [reflexivity|].
  destruct e; cbn -[aput adel sput sdel]; try exact IH; try (destruct (_ =? c); exact IH).
  - destruct (c0 =? c); [|exact IH]. cbn [c_itei set_iteis andb]. rewrite aget_aput, (N.eqb_sym t).
    destruct (t0 =? t); [reflexivity|exact IH].
  - destruct (c0 =? c); [|exact IH]. cbn [c_itei set_iteis andb]. rewrite aget_adel, (N.eqb_sym t).
    destruct (t0 =? t); [reflexivity|exact IH].
  - destruct (c0 =? c); [|exact IH]. cbn [c_itei set_iteis]. unfold without_imsi.
    rewrite aget_filter by apply conn_keys. rewrite <- IH. destruct (aget _ t) as [[s|]|]; cbn; try reflexivity.
    rewrite sess_imsi. now destruct (bytes_eqb _ _).
  - destruct (c0 =? c); [|exact IH]. cbn [c_itei set_iteis andb]. rewrite aget_aput, (N.eqb_sym t).
    destruct (t0 =? t); [reflexivity|exact IH].
Qed.
Lemma conn_teid_reg c t l s : aget (c_itei (conn_of c l)) t = Some (Some s) <-> teid_known c t l = Registered s.
Proof. rewrite <- conn_teid. destruct (aget _ t) as [[x|]|]; cbn; split; congruence. Qed.
Lemma conn_teid_res c t l : aget (c_itei (conn_of c l)) t = Some None <-> teid_known c t l = Reserved.
Proof. rewrite <- conn_teid. destruct (aget _ t) as [[x|]|]; cbn; split; congruence. Qed.
Lemma conn_teid_unk c t l : aget (c_itei (conn_of c l)) t = None <-> teid_known c t l = Unknown.
Proof. rewrite <- conn_teid. destruct (aget _ t) as [[x|]|]; cbn; split; congruence. Qed.
Lemma nil_reserved c l : has_nil (c_itei (conn_of c l)) = true <-> exists t, teid_known c t l = Reserved.
Proof.
  pose proof (conn_keys c l) as K. split.
  - intros H. unfold has_nil in H. apply existsb_exists in H as ([t [s|]] & Hin & Hs); [discriminate|].
    exists t. apply conn_teid_res. revert K Hin. generalize (c_itei (conn_of c l)). clear. intros m K H.
    induction m as [|[x v] m IH]; [destruct H|]. inversion K as [|? ? N D]; subst. cbn. destruct H as [[= -> ->]|H].
    + now rewrite N.eqb_refl.
    + destruct (x =? t) eqn:E; [|now apply IH]. apply N.eqb_eq in E. subst. exfalso. apply N.
      apply in_map_iff. now exists (t, None).
  - intros (t & H). apply conn_teid_res in H. unfold has_nil. apply existsb_exists. exists (t, None).
    split; [|reflexivity]. revert H. generalize (c_itei (conn_of c l)). clear. intros m.
    induction m as [|[x v] m IH]; [discriminate|]. cbn. destruct (x =? t) eqn:E.
    + apply N.eqb_eq in E. subst. intros [= ->]. now left.
    + right. auto.
Qed.
End Conn.

(** ** Queues *)
Lemma ns_app l2 l1 : ns_of l1 <= ns_of (l2 ++ l1).
Proof. induction l2 as [|e l IH]; cbn; [lia|]. destruct e; lia. Qed.

(** a history all of whose events are justified *)
Definition good (ift counter : N -> N) (l : list event) : Prop :=
  forall l2 e l1, l = l2 ++ e :: l1 -> event_ok ift counter e l1.
Lemma good_tail ift counter e l : good ift counter (e :: l) -> good ift counter l.
Proof. intros G l2 x l1 ->. apply (G (e :: l2)). reflexivity. Qed.
Lemma good_head ift counter e l : good ift counter (e :: l) -> event_ok ift counter e l.
Proof. intros G. apply (G []). reflexivity. Qed.
Lemma good_app ift counter l2 l1 : good ift counter (l2 ++ l1) -> good ift counter l1.
Proof. induction l2; cbn; [auto|]. intros G. eauto using good_tail. Qed.
Lemma good_at ift counter l2 e l1 : good ift counter (l2 ++ e :: l1) -> event_ok ift counter e l1.
Proof. intros G. now apply (G l2). Qed.
Lemma history_good ift counter l : history ift counter l -> good ift counter l.
Proof. intros (ls & w & R & <-). exact (iv_log _ _ _ (reached _ _ _ _ R)). Qed.

Lemma call_in id k l : hist id l = [EvCall id k] -> In (EvCall id k) l.
Proof.
  intros H. assert (In (EvCall id k) (hist id l)) as I by (rewrite H; now left). now apply filter_In in I.
Qed.
Lemma hist_in id e l : In e (hist id l) -> In e l.
Proof. intros I. now apply filter_In in I. Qed.
Lemma called ift counter l id k : good ift counter l -> In (EvCall id k) l ->
  match k with
  | KRegister _ _ s | KRemove _ s | KCreate _ s _ _ | KPass s _ | KWait s _ => s < ns_of l
  | _ => True
  end.
Proof.
  intros G I. apply in_split in I as (l2 & l1 & ->). pose proof (good_at _ _ _ _ _ G) as [_ H].
  pose proof (ns_app l2 (EvCall id k :: l1)) as M. cbn [ns_of] in M. destruct k; auto; lia.
Qed.
Lemma no_queue ift counter s l : good ift counter l -> ns_of l <= s ->
  queued s l = [] /\ took s l = [].
Proof.
  induction l as [|e l IH]; [split; reflexivity|]. intros G L. pose proof (good_head _ _ _ _ G) as H.
  apply good_tail in G.
  assert (ns_of l <= s) as L' by (pose proof (ns_app [e] l) as M; cbn [app] in M; lia).
  destruct (IH G L') as [Q T]. destruct e; cbn; auto; destruct (s0 =? s) eqn:E; auto; apply N.eqb_eq in E; subst s0;
    cbn in H; destruct H as [H _]; apply call_in in H; pose proof (called _ _ _ _ _ G H); cbn in *; lia.
Qed.
Lemma queue_is ift counter s l : good ift counter l ->
  queued s l = took s l ++ s_queue (sess_of s l) /\ (List.length (s_queue (sess_of s l)) <= 1000)%nat.
Proof.
  induction l as [|e l IH]; [intros _; cbn; split; [reflexivity|lia]|]. intros G. pose proof (good_head _ _ _ _ G) as H.
  apply good_tail in G. destruct (IH G) as [Q L]. destruct e; cbn; auto.
  - (* EvSession *) destruct (s0 =? s) eqn:E; [|auto]. apply N.eqb_eq in E. subst s0. destruct H as [-> _].
    destruct (no_queue _ _ (ns_of l) l G) as [-> ->]; [lia|]. cbn. split; [reflexivity|lia].
  - destruct (s0 =? s) eqn:E; [|auto]. destruct x; auto.
  - destruct (s0 =? s) eqn:E; [|auto]. apply N.eqb_eq in E. subst s0. destruct H as [_ H].
    cbn [s_queue set_queue]. rewrite app_length. cbn. rewrite Q, app_assoc. split; [reflexivity|lia].
  - destruct (s0 =? s) eqn:E; [|auto]. apply N.eqb_eq in E. subst s0. destruct H as (_ & (q & H) & _).
    cbn [s_queue set_queue]. rewrite H in *. cbn [tl] in *. rewrite Q, <- app_assoc. cbn in *. split; [reflexivity|lia].
Qed.
