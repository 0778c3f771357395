(** Property C67: which IEs the accessors of gtpv2/ie answer for.
    Specification: V2AnswerSpec.v (answers2, ip_rows, ip6_rows, plmn_rows, location_octets, options_fit,
    in_context, serves), TftAnswerSpec.v (tft_spelled); AccSpec.v lists the accessors by their Go names. *)
From Coq Require Import String ZArith Lia.
From Verif Require Import Base BaseLemmas V2IE V2Codec V2Codec2 V2Ind V2Pco V2Tft V2Uli V2Acc AccSpec TvAnswerProofs CodecSpec3 TftAnswerSpec TftAnswerProofs V2AnswerSpec V2AnswerProofs V2AnswerProofs2 PropertiesTvAnswer.
Open Scope N_scope.
Open Scope list_scope.

(** An accessor of the table answers an IE (not a group) if and only if the IE is of one of its
    types, its payload is of a form the accessor knows, and has the octets needed. *)
Theorem C67_v2_answers : forall g i n f r, bytes_ok (i2_payload i) -> g (i2_type i) = false -> i2_type i <> 93 ->
  In (n, f) (accessors g) -> In (n, r) answers2 -> (f i = Ok tt <-> serves r (i2_type i) (i2_payload i)).
Proof.
  intros g i n f r Hb Hg Hc Hf Hr. pose proof (answers2_exact g i Hb Hg Hc) as H. rewrite Forall_forall in H. specialize (H _ Hf). unfold holds2 in H. cbn [fst snd] in H.
  assert (Hnd : NoDup (map fst answers2)) by (apply names_nodup; vm_compute; reflexivity).
  assert (E : find (fun p => String.eqb (fst p) n) answers2 = Some (n, r)).
  { clear H Hf. induction answers2 as [|[x y] l IH]; [destruct Hr|]. cbn [map fst] in Hnd. inversion Hnd as [|a b Hx Hl E]. subst.
    cbn [find fst]. destruct (String.eqb_spec x n) as [E|E].
    - destruct Hr as [Hr|Hr]; [rewrite Hr; reflexivity|]. exfalso. apply Hx. rewrite E. apply (in_map fst) in Hr. exact Hr.
    - destruct Hr as [Hr|Hr]; [injection Hr; intros; contradiction|]. apply IH; assumption. }
  rewrite E in H. exact H.
Qed.
(** the accessors outside the table: those below, and the flags of an Indication, which always answer *)
Example C67_v2_answers_rest :
  filter (fun n => negb (existsb (String.eqb n) (map fst answers2) || prefix "Has" n)) (map fst (accessors (fun _ => false))) =
    ["PDNType"; "ValueAsUint8"; "ValueAsUint16"; "ValueAsUint32"; "ValueAsUint64"; "ValueAsString"; "ValueAsFQDN"; "BearerContext";
     "PDNType"; "IP"; "IPAddress"; "IPv4"; "IPv6"; "S1UDataForwarding"; "S103PDNDataForwardingInfo"; "OffendingIE"; "ParseTraceReferenceFields"; "MCC"; "MNC";
     "ProtocolConfigurationOptions"; "TrafficFlowTemplate"; "BearerTFT"; "TrafficAggregateDescription";
     "UserLocationInformation"; "UserLocationInfo"; "ParsePDNAddressAllocationFields"]%string.
Proof. vm_compute. reflexivity. Qed.
Example C67_v2_answers_case :
  serves [any 80 7; any 81 6] 80 [1; 2; 0; 0; 0; 0; 9] /\ acc_umbr (IE2 80 7 0 [1; 2; 0; 0; 0; 0; 9] []) = Ok 9 /\
  acc_umbr (IE2 80 6 0 [1; 2; 0; 0; 0; 0] []) = Err EUnexpectedEOF /\ In ("MBRForUplink"%string, [any 80 7; any 81 6]) answers2 /\
  acc_node_id (IE2 132 5 0 [1; 10; 0; 0; 1] []) = Err EUnexpectedEOF /\ acc_node_id (IE2 132 6 0 [1; 10; 0; 0; 1; 7] []) = Ok [10; 0; 0; 1].
Proof.
  split; [exists [], 7; split; [left; reflexivity|split; [constructor|vm_compute; discriminate]]|]. split; [vm_compute; reflexivity|]. split; [vm_compute; reflexivity|].
  split; [|vm_compute; auto]. unfold answers2. repeat (first [left; reflexivity|right]).
Qed.

(** IP, IPAddress; IPv4 answers for no other IE *)
Theorem C67_v2_answers_ip : forall i, bytes_ok (i2_payload i) ->
  ((exists v, acc_ip i = Ok v) <-> serves ip_rows (i2_type i) (i2_payload i)) /\
  (forall v, acc_ipv4 i = Ok v -> len v = 4%nat /\ serves ip_rows (i2_type i) (i2_payload i)).
Proof.
  intros i Hb. assert (H : (exists v, acc_ip i = Ok v) <-> serves ip_rows (i2_type i) (i2_payload i)) by (rewrite serves_by; apply ip2_answers, Hb). split; [exact H|].
  intros v. unfold acc_ipv4, found. destruct (acc_ip i) as [ip|e|]; cbn [bind]; [|discriminate|discriminate]. intros G. split; [|apply H; eauto].
  destruct (to4 ip) as [w|] eqn:E; [|discriminate G]. injection G as <-. unfold to4 in E. destruct ip as [b|]; [|discriminate E].
  destruct (len b =? 4)%nat eqn:L; [injection E as <-; lia|]. destruct (_ && _)%bool eqn:M; [|discriminate E]. assert (E' : w = skipn 12 b) by congruence. apply andb_true_iff in M. rewrite E', skipn_length. lia.
Qed.
Theorem C67_v2_answers_ip6 : forall i, let p := i2_payload i in bytes_ok p -> ((exists v, acc_ipv6 i = Ok v) <->
  (i2_type i = 74 /\ (len p = 4%nat \/ len p = 16%nat)) \/ serves ip6_rows (i2_type i) p).
Proof. intros i p Hb. rewrite serves_by. apply ip6_answers, Hb. Qed.
(** the forwarding IEs: every part counted must be there *)
Theorem C67_v2_answers_forwarding : forall i, let p := i2_payload i in bytes_ok p ->
  ((exists v, acc_s1udf i = Ok v) <-> i2_type i = 91 /\ (6 + N.to_nat (nth 1 p 0%N) <= len p)%nat) /\
  ((exists v, acc_s103 i = Ok v) <-> i2_type i = 90 /\ (let n := N.to_nat (nth 0 p 0%N) in 6 + n <= len p /\ 6 + n + N.to_nat (nth (5 + n) p 0%N) <= len p)%nat).
Proof. intros i p Hb. split; [apply s1u_answers, Hb|apply s103_answers, Hb]. Qed.
(** OffendingIE: only an IE without a payload can be read back *)
Theorem C67_v2_answers_offending : forall g i, bytes_ok (i2_payload i) -> ((exists v, acc_offending g i = Ok v) <->
  i2_type i = 2 /\ (6 <= len (i2_payload i))%nat /\ nth 3 (i2_payload i) 0 = 0 /\ nth 4 (i2_payload i) 0 = 0).
Proof. exact offending_answers. Qed.
Theorem C67_v2_answers_pdn : forall g i, g (i2_type i) = false -> ((exists v, acc_pdn_type g i = Ok v) <-> serves [any 99 1; any 79 1] (i2_type i) (i2_payload i)).
Proof.
  intros g i Hg. rewrite serves_by. unfold acc_pdn_type, value_u8. rewrite Hg. cbn [served_by any fold_right]. fold (@fine N (if (i2_type i =? 99) || (i2_type i =? 79) then if (len (i2_payload i) <? 1)%nat then Err EUnexpectedEOF else idx (i2_payload i) 0 else Err EInvalidType)).
  split_tac; end_tac.
Qed.
(** user locations: one octet of flags and every part it names; the type of the IE matters to
    UserLocationInformation only *)
Theorem C67_v2_answers_location : forall i, let p := i2_payload i in bytes_ok p ->
  ((exists v, acc_uli i = Ok v) <-> i2_type i = 86 /\ p <> [] /\ (1 + location_octets (nth 0 p 0%N) <= len p)%nat) /\
  ((exists v, acc_uli_info i = Ok v) <-> p <> [] /\ (1 + location_octets (nth 0 p 0%N) <= len p)%nat) /\
  ((exists v, acc_mcc_mnc_all i = Ok v) <-> serves plmn_rows (i2_type i) p \/
     (i2_type i = 86 /\ nth 0 p 0 <> 0 /\ (1 + location_octets (nth 0 p 0%N) <= len p)%nat)).
Proof.
  intros i p Hb. split; [|split].
  - rewrite <- (uli_answers p Hb). unfold acc_uli, typed. destruct (N.eqb_spec (i2_type i) 86) as [E|E]; [tauto|]. split; [intros [v G]; discriminate G|tauto].
  - rewrite <- (uli_answers p Hb). unfold acc_uli_info, fine. fold p. destruct (uli_parse p) as [f|e|]; cbn [bind]; split; intros [v G]; try discriminate G; eauto.
  - rewrite serves_by. apply plmn_answers, Hb.
Qed.
(** protocol configuration options *)
Theorem C67_v2_answers_options : forall g i, i2_type i <> 93 -> ((exists v, acc_pco g i = Ok v) <->
  i2_type i = 78 /\ i2_payload i <> [] /\ options_fit (S (len (i2_payload i))) (skipn 1 (i2_payload i))).
Proof.
  intros g i Hc. rewrite <- (options_answers (i2_payload i)). unfold acc_pco, via_context. destruct (N.eqb_spec (i2_type i) 78) as [E|E].
  - destruct (len (i2_payload i) <? 1)%nat eqn:L; [|tauto]. split; [intros [v G]; discriminate G|].
    intros [_ G]. rewrite options_answers in G. destruct G as [G _]. elim G. apply length_zero_iff_nil. lia.
  - apply N.eqb_neq in Hc. rewrite Hc. split; [intros [v G]; discriminate G|tauto].
Qed.
(** TrafficFlowTemplate, BearerTFT and TrafficAggregateDescription: the payload spells the
    template that is answered, and no other answers *)
Theorem C67_v2_answers_template : forall g i f, bytes_ok (i2_payload i) -> i2_type i <> 93 ->
  (acc_tft g i = Ok f <-> (i2_type i = 84 \/ i2_type i = 85) /\ tft_spelled f (i2_payload i)).
Proof.
  intros g i f Hb Hc. rewrite <- (tft_spelled_iff _ f Hb). unfold acc_tft. apply N.eqb_neq in Hc. rewrite Hc.
  destruct (N.eqb_spec (i2_type i) 84) as [E|E]; [cbn [orb]; tauto|]. destruct (N.eqb_spec (i2_type i) 85) as [E'|E']; cbn [orb]; [tauto|].
  split; [discriminate|]. intros [[G|G] _]; contradiction.
Qed.
Example C67_v2_answers_template_case : let f := Tft 1 [PFilter 1 2 7 2 [Comp 48 [6]]] [] [] in
  tft_spelled f [33; 210; 7; 2; 48; 6; 99] /\ acc_tft (fun _ => false) (IE2 84 7 0 [33; 210; 7; 2; 48; 6; 99] []) = Ok f /\
  acc_tft (fun _ => false) (IE2 85 6 0 [33; 210; 7; 1; 48; 6] []) = Err EUnexpectedEOF.
Proof.
  cbv zeta. split; [|vm_compute; auto]. exists 33, [210; 7; 2; 48; 6], [99]. split; [reflexivity|]. split; [reflexivity|]. split; [|reflexivity].
  split; [reflexivity|]. split; [reflexivity|]. exists [[210; 7; 2; 48; 6]]. split; [|reflexivity]. constructor; [|constructor].
  split; [|exists 3; split; reflexivity]. repeat split; try reflexivity. repeat constructor.
Qed.
(** a Bearer Context is asked through its first IE of the type: it answers if and only if it
    holds one and that one answers *)
Theorem C67_v2_answers_context : forall g i n f t, i2_type i = 93 -> In (n, f) (accessors g) -> In (n, t) in_context ->
  (f i = Ok tt <-> i2_payload i <> [] /\ exists cs c, multi2 g (i2_payload i) = Ok cs /\ find (fun c => i2_type c =? t) cs = Some c /\ f c = Ok tt).
Proof.
  intros g i n f t Ht Hf Hn.
  assert (H : Forall (context_holds g i) (accessors g)); [|rewrite Forall_forall in H; exact (H _ Hf t Hn Ht)].
  clear n f t Ht Hf Hn.
  assert (Out : forall n f, existsb (fun e => String.eqb (fst e) n) in_context = false -> context_holds g i (n, f)).
  { intros n f H t Hin. exfalso. rewrite <- not_true_iff_false in H. apply H. apply existsb_exists. exists (n, t). split; [exact Hin|apply String.eqb_refl]. }
  assert (Via : forall A t (f : ie2 -> res A) c, via_context g t (via_context g t f) c = via_context g t f c).
  { intros A t f c. unfold via_context. destruct (i2_type c =? t); [reflexivity|]. destruct (_ =? 93); [|reflexivity]. destruct (bearer_context g c) as [cs|e|]; cbn [bind]; [|reflexivity|reflexivity].
    destruct (find _ cs) as [d|] eqn:F; [|reflexivity]. apply find_some in F. destruct F as [_ F]. rewrite F. reflexivity. }
  assert (Row : forall A n t (f : ie2 -> res A), filter (fun e => String.eqb (fst e) n) in_context = [(n, t)] -> t <> 93 ->
     (forall c, i2_type c = t \/ i2_type c = 93 -> f c = via_context g t f c) -> context_holds g i (n, ends f)).
  { intros A n t f H Ht Hf. apply (context_row g n f t); [|exact Ht|exact Hf]. intros s Hs.
    assert (Hs' : In (n, s) (filter (fun e => String.eqb (fst e) n) in_context)) by (apply filter_In; split; [exact Hs|apply String.eqb_refl]).
    rewrite H in Hs'. destruct Hs' as [Q|[]]. injection Q as ->. reflexivity. }
  assert (Tft : forall c, i2_type c = 84 \/ i2_type c = 93 -> acc_tft g c = via_context g 84 (acc_tft g) c).
  { intros c [E|E]; [symmetry; apply via_self, E|apply tft_via, E]. }
  unfold accessors, u8_ies, u16_ies, u32_ies, string_ies, fqdn_ies. cbn [map app fst snd].
  repeat (apply Forall_cons; [first [apply Out; vm_compute; reflexivity | eapply Row; [vm_compute; reflexivity|discriminate|first [exact Tft | intros c _; symmetry; apply Via]]]|]); apply Forall_nil.
Qed.
Example C67_v2_answers_context_case : let ctx := IE2 93 10 0 [73; 0; 1; 0; 5; 2; 0; 1; 0; 16] [] in
  ends (acc_cause (fun t => t =? 93)) ctx = Ok tt /\ ends (acc_bqos (fun t => t =? 93)) ctx = Err EIENotFound /\
  options_fit 11 [0; 13; 1; 9; 0; 16; 4; 8; 8; 0] /\ ~ options_fit 9 [0; 13; 1; 9; 0; 16; 4; 8] /\ acc_uli_info (IE2 1 6 0 [8; 33; 243; 84; 0; 7] []) = Ok (Uli 0 None None None (Some (Loc1 [49; 50; 51] [52; 53] 7)) None None None None) /\
  acc_offending (fun t => t =? 93) (IE2 2 6 0 [64; 0; 87; 0; 1; 0] []) = Err EInvalidLength.
Proof. vm_compute. repeat (split; [try reflexivity; auto|]). reflexivity. Qed.

Print Assumptions C67_v2_answers.
Print Assumptions C67_v2_answers_ip.
Print Assumptions C67_v2_answers_ip6.
Print Assumptions C67_v2_answers_forwarding.
Print Assumptions C67_v2_answers_offending.
Print Assumptions C67_v2_answers_pdn.
Print Assumptions C67_v2_answers_location.
Print Assumptions C67_v2_answers_options.
Print Assumptions C67_v2_answers_template.
Print Assumptions C67_v2_answers_context.
