(** Properties C38 and C39: which IEs the accessors of gtpv1/ie and gtpv0/ie answer for.
    Specification: TvAnswerSpec.v (answers1, answers0, served, labels_fit). *)
From Coq Require Import String ZArith.
From Verif Require Import Base TvIE TvCodec TvCodecSpec TvAnswerSpec TvAnswerProofs.
Open Scope N_scope.
Open Scope list_scope.

(** an accessor of the table answers an IE if and only if the IE is of one of its types and the
    payload has the octets needed: a shorter one is an error, a longer one is not *)
Lemma row_exact rows accs i : Forall (row_holds rows i) accs -> NoDup (map fst rows) ->
  forall n ts f r, In (n, ts, f) accs -> In (n, r) rows -> (f i = Ok tt <-> served r (i1_type i) (i1_payload i)).
Proof.
  intros H Hnd n ts f r Ha Hr. rewrite Forall_forall in H. specialize (H _ Ha). unfold row_holds in H. cbn [fst snd] in H.
  assert (E : row_of rows n = Some r).
  { unfold row_of. clear H Ha. induction rows as [|[x y] l IH]; [destruct Hr|]. cbn [map fst] in Hnd. inversion Hnd as [|a b Hx Hl E]. subst.
    cbn [find fst]. destruct (String.eqb_spec x n) as [E|E].
    - destruct Hr as [Hr|Hr]; [injection Hr as _ ->; reflexivity|]. exfalso. apply Hx. rewrite E. apply (in_map fst) in Hr. exact Hr.
    - destruct Hr as [Hr|Hr]; [injection Hr; intros; contradiction|]. apply IH; assumption. }
  rewrite E in H. exact H.
Qed.
Lemma names_nodup (l : list string) : (fix f l := match l with [] => true | x :: r => negb (existsb (String.eqb x) r) && f r end)%bool l = true -> NoDup l.
Proof.
  induction l as [|x r IH]; [constructor|]. rewrite andb_true_iff, negb_true_iff. intros [H1 H2]. constructor; [|apply IH, H2].
  intros G. rewrite <- not_true_iff_false in H1. apply H1. apply existsb_exists. exists x. split; [exact G|apply String.eqb_refl].
Qed.
Theorem C38_v1_answers : forall i n ts f r, In (n, ts, f) accessors1 -> In (n, r) answers1 ->
  (f i = Ok tt <-> served r (i1_type i) (i1_payload i)).
Proof. intros i. apply row_exact; [apply answers1_exact|apply names_nodup; vm_compute; reflexivity]. Qed.
Theorem C39_v0_answers : forall i n ts f r, In (n, ts, f) accessors0 -> In (n, r) answers0 ->
  (f i = Ok tt <-> served r (i1_type i) (i1_payload i)).
Proof. intros i. apply row_exact; [apply answers0_exact|apply names_nodup; vm_compute; reflexivity]. Qed.
(** the accessors outside the table look at the octets *)
Example C38_v1_answers_rest :
  filter (fun n => negb (existsb (String.eqb n) (map fst answers1))) (map (fun a => fst (fst a)) accessors1) =
    ["RAC"; "CGI"; "SAC"; "IP"; "IPAddress"; "AccessPointName"; "CK"; "IK"; "ProtocolConfigurationOptions"]%string /\
  filter (fun n => negb (existsb (String.eqb n) (map fst answers0))) (map (fun a => fst (fst a)) accessors0) = ["IPAddress"]%string.
Proof. split; vm_compute; reflexivity. Qed.
Example C38_v1_answers_case : served [(134, 2)] 134 [145; 33] /\ acc_msisdn1 (IE1 134 2 [145; 33]) = Ok [49; 50] /\
  acc_msisdn1 (IE1 134 1 [145]) = Err EUnexpectedEOF /\ acc_mnc0 (IE1 3 1 [1]) = Err EUnexpectedEOF.
Proof. split; [exists 2; split; [left; reflexivity|vm_compute; discriminate]|]. vm_compute. auto. Qed.

(** RAC: the octet behind the area code; in a location IE only if that is a routeing area *)
Theorem C38_v1_answers_rac : forall i, (exists v, acc_rac1 i = Ok v) <->
  (i1_type i = 3 /\ (6 <= len (i1_payload i))%nat) \/ (i1_type i = 152 /\ (7 <= len (i1_payload i))%nat /\ nth 0 (i1_payload i) 0 = 2).
Proof. exact rac_answers. Qed.
(** CGI of a location IE that says 0, SAC of one that says 1 *)
Theorem C38_v1_answers_area : forall i,
  ((exists v, acc_cgi1 i = Ok v) <-> i1_type i = 152 /\ (8 <= len (i1_payload i))%nat /\ nth 0 (i1_payload i) 0 = 0) /\
  ((exists v, acc_sac1 i = Ok v) <-> i1_type i = 152 /\ (8 <= len (i1_payload i))%nat /\ nth 0 (i1_payload i) 0 = 1).
Proof. intros i. split; [apply (area_answers 0)|apply (area_answers 1)]. Qed.
(** IP and IPAddress, in both versions: a GSN address, or an end user address of the IETF kind *)
Theorem C38_v1_answers_ip : forall i, (exists v, acc_ip1 i = Ok v) <->
  (4 <= len (i1_payload i))%nat /\ (i1_type i = 133 \/ (i1_type i = 128 /\ nth 0 (i1_payload i) 0 = 241)).
Proof. exact ip_answers. Qed.
Theorem C38_v1_answers_apn : forall i, (exists v, acc_apn1 i = Ok v) <-> i1_type i = 131 /\ labels_fit (S (len (i1_payload i))) (i1_payload i).
Proof. exact apn_answers. Qed.
(** the quintuplet: everything up to the value must be there; octet 16 counts the response *)
Theorem C38_v1_answers_quintuplet : forall i, let p := i1_payload i in let n := N.to_nat (nth 16 p 0) in
  ((exists v, acc_ck i = Ok v) <-> i1_type i = 136 /\ (33 + n <= len p)%nat) /\
  ((exists v, acc_ik i = Ok v) <-> i1_type i = 136 /\ (49 + n <= len p)%nat) /\
  ((exists v, acc_xres i = Ok v) <-> p = [] \/ (i1_type i = 136 /\ (17 <= len p)%nat /\ (17 + n <= len p)%nat)) /\
  ((exists v, acc_autn i = Ok v) <-> i1_type i = 136 /\ (51 <= len p)%nat /\ (49 + n + N.to_nat (nth 50 p 0%N) <= len p)%nat).
Proof. intros i p n. split; [apply ck_answers|]. split; [apply ik_answers|]. split; [apply xres_answers|apply autn_answers]. Qed.
Theorem C38_v1_answers_pco : forall i v, acc_pco1 i = Ok v -> i1_type i = 132 /\ i1_payload i <> [].
Proof. exact pco_answers. Qed.
Example C38_v1_answers_content_case :
  acc_rac1 (IE1 152 7 [2; 1; 2; 3; 0; 4; 9]) = Ok 9 /\ acc_rac1 (IE1 152 8 [1; 1; 2; 3; 0; 4; 9; 9]) = Err EInvalidType /\
  acc_sac1 (IE1 152 8 [1; 1; 2; 3; 0; 4; 9; 9]) = Ok 2313 /\ acc_sac1 (IE1 152 7 [1; 1; 2; 3; 0; 4; 9]) = Err EUnexpectedEOF /\
  acc_ip1 (IE1 128 6 [241; 33; 10; 0; 0; 1]) = Ok [10; 0; 0; 1] /\ acc_ip1 (IE1 128 6 [240; 33; 10; 0; 0; 1]) = Err EMalformed /\
  acc_apn1 (IE1 131 3 [2; 97; 98]) = Ok [97; 98] /\ acc_apn1 (IE1 131 3 [3; 97; 98]) = Err EUnexpectedEOF /\
  acc_ck (IE1 136 33 (zeros 33)) = Ok (zeros 16) /\ acc_ck (IE1 136 32 (zeros 32)) = Err EUnexpectedEOF.
Proof. vm_compute. repeat split. Qed.

Print Assumptions C38_v1_answers.
Print Assumptions C39_v0_answers.
Print Assumptions C38_v1_answers_rac.
Print Assumptions C38_v1_answers_area.
Print Assumptions C38_v1_answers_ip.
Print Assumptions C38_v1_answers_apn.
Print Assumptions C38_v1_answers_quintuplet.
Print Assumptions C38_v1_answers_pco.
