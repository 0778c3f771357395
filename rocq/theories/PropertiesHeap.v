(** C54: editing parsed IEs that share the array of a datagram. *)
From Coq Require Import ZArith.
From Verif Require Import Base BaseLemmas Utils V2IE V2IESpec V2IEProofs V2Heap HeapSpec HeapProofs.

(** ** Lemmas *)
Lemma parsed_good h a : (a < List.length h)%nat -> good h (Slc a 0 (len (arr h a))).
Proof. intros H. split; cbn [s_arr s_off s_len]; [exact H|lia]. Qed.
Lemma within_inside h a lo hi i : (a < List.length h)%nat -> (hi <= len (arr h a))%nat -> within a lo hi i -> inside h i.
Proof. intros H L. apply Forall_impl. intros s (-> & A & B). split; [exact H|lia]. Qed.
Lemma within_before a lo hi e f i : (hi <= e)%nat -> within a lo hi i -> apart a e f i.
Proof. intros H. apply Forall_impl. intros s (-> & A & B). right. left. lia. Qed.
Lemma elsewhere_apart a lo hi i : elsewhere a i -> apart a lo hi i.
Proof. apply Forall_impl. auto. Qed.
(** ** Reading *)
(** Parsed IEs show what the parser of V2IE.v gives: the theorems about it hold of the parts of the
    array. *)
Theorem C54_v2_parse_view : forall g h a, (a < List.length h)%nat ->
  (do ms <- parsed g h a; Ok (map (view h) ms)) = multi2 g (arr h a).
Proof.
  intros g h a H. unfold parsed, multi2. destruct (refines g (len (arr h a) + 2) h _ (parsed_good h a H)) as [_ ->].
  unfold read. cbn [s_arr s_off s_len skipn]. rewrite firstn_all. reflexivity.
Qed.

(** ** Remove *)
(** Remove gives the IE that C22 describes, and every other IE in memory keeps its value, whether or
    not it was parsed from the same datagram. *)
Theorem C54_v2_remove_isolated : forall g grow h i typ ins, g (im_type i) = true -> inside h i ->
  exists h' i', remove_m g grow h i typ ins = Ok (h', i') /\ remove2 g (view h i) typ ins = Ok (view h' i') /\
    forall m, inside h m -> view h' m = view h m.
Proof.
  intros g grow h i typ ins Hg I. destruct (remove_m_ok g grow h i typ ins Hg I) as (h' & i' & E & O & _ & R). exists h', i'. split; [exact E|]. split; [exact R|].
  intros m Hm. apply (view_only _ _ _ _ _ _ O Hm). eapply apart_out; [exact Hm|reflexivity].
Qed.

(** ** Add *)
(** Add gives the IE that C22 describes and changes no IE that reads nothing of the octets behind the
    payload, as many as are appended. *)
Theorem C54_v2_add_apart_partial : forall g grow h i ies, g (im_type i) = true -> inside h i ->
  let a := s_arr (im_payload i) in let hi := (ends_at i + len (octets_of g h ies))%nat in
  apart a (ends_at i) hi i -> (forall x, In (Some x) ies -> inside h x /\ apart a (ends_at i) hi x) ->
  exists h' i', add_m g grow h i ies = Ok (h', i') /\ add2 g (view h i) (map (option_map (view h)) ies) = Ok (view h' i') /\
    forall m, inside h m -> apart a (ends_at i) hi m -> view h' m = view h m.
Proof.
  intros g grow h i ies Hg I a hi Ai A. destruct (add_m_ok g grow h i ies Hg I Ai A) as (h' & i' & E & O & _ & R). exists h', i'. split; [exact E|]. split; [exact R|].
  intros m Hm Am. exact (view_only _ _ _ _ _ _ O Hm Am).
Qed.
(** In a parsed message the IEs before the edited one keep their values, and so do IEs in other arrays;
    if the edited IE is the last one, this is the whole message. *)
Theorem C54_v2_add_earlier_partial : forall g grow h a l1 i l2 ies, (a < List.length h)%nat ->
  parsed g h a = Ok (l1 ++ i :: l2) -> g (im_type i) = true -> (forall x, In (Some x) ies -> inside h x /\ elsewhere a x) ->
  exists h' i', add_m g grow h i ies = Ok (h', i') /\ add2 g (view h i) (map (option_map (view h)) ies) = Ok (view h' i') /\
    map (view h') l1 = map (view h) l1 /\ (forall m, inside h m -> elsewhere a m -> view h' m = view h m).
Proof.
  intros g grow h a l1 i l2 ies Ha E Hg A. destruct (multi_split g l1 _ h _ i l2 (parsed_good h a Ha) E) as (o & l & A1 & A2 & A3 & _ & A5 & A6 & A7 & A8 & _).
  cbn [s_arr s_off s_len] in *. assert (Ee : ends_at i = (o + 4 + l)%nat) by (unfold ends_at; lia).
  destruct (add_m_ok g grow h i ies Hg) as (h' & i' & Ea & O & _ & R).
  - eapply within_inside; [exact Ha| |exact A7]. lia.
  - rewrite A1, Ee. eapply within_before; [|exact A7]. lia.
  - intros x Hx. destruct (A x Hx) as [Ix Ex]. split; [exact Ix|]. apply elsewhere_apart. rewrite A1. exact Ex.
  - rewrite A1, Ee in O. exists h', i'. split; [exact Ea|]. split; [exact R|]. split.
    + apply (views_only _ _ _ _ _ _ O). { eapply Forall_impl; [|exact A6]. intros m. apply within_inside; [exact Ha|lia]. }
      eapply Forall_impl; [|exact A6]. intros m. apply within_before. lia.
    + intros m Im Em. apply (view_only _ _ _ _ _ _ O Im). apply elsewhere_apart. exact Em.
Qed.
(** Adding one IE for which the rest of the array has no room changes no other IE at all. *)
Theorem C54_v2_add_no_room_partial : forall g grow h i x, g (im_type i) = true -> inside h i -> inside h x ->
  (len (arr h (s_arr (im_payload i))) < ends_at i + len (wire2 g (view h x)))%nat ->
  exists h' i', add_m g grow h i [Some x] = Ok (h', i') /\ add2 g (view h i) [Some (view h x)] = Ok (view h' i') /\
    forall m, inside h m -> view h' m = view h m.
Proof.
  intros g grow h [t l n p c] x Hg I Ix H. cbn [im_type im_payload] in *. unfold ends_at in H. cbn [im_payload] in H. apply inside_iff in I. destruct I as [Gp Ic].
  cbn [add_m add_loop_m]. rewrite Hg. cbn [negb]. rewrite (marshal2_ok g).
  pose proof (append_ok grow h p (wire2 g (view h x)) Gp) as (h1 & p1 & E1 & _ & G1 & R1 & L1 & _).
  assert (E2 : h1 = h ++ [read h p ++ wire2 g (view h x) ++ zeros (grow (s_len p + len (wire2 g (view h x)))%nat)]).
  { unfold append in E1. replace (s_off p + s_len p + len (wire2 g (view h x)) <=? len (arr h (s_arr p)))%nat with false in E1 by lia. congruence. }
  rewrite E1. cbn [bind].
  assert (O : only h h1 (List.length h) 0 0).
  { rewrite E2. split; [rewrite app_length; lia|]. intros b Hb. unfold arr. rewrite app_nth1 by lia. auto. }
  assert (K : forall m, inside h m -> view h1 m = view h m).
  { intros m Hm. apply (view_only _ _ _ _ _ _ O Hm). eapply apart_out; [exact Hm|reflexivity]. }
  eexists _, _. split; [reflexivity|]. split; [|exact K].
  rewrite view_eq, add2_ok by exact Hg. cbn [set_length_m]. rewrite view_eq, R1, map_app. cbn [somes flat_map app map]. rewrite app_nil_r.
  do 2 f_equal. { rewrite <- (read_len h1 p1 G1), R1. reflexivity. }
  f_equal; [|rewrite (K x Ix); reflexivity]. apply map_ext_Forall. eapply Forall_impl; [|exact Ic]. intros m Hm. symmetry. apply K. exact Hm.
Qed.
(** If there is room, the property fails for every IE [j] behind the edited one [i] with a payload:
    the octets of the added IE from the fifth on take its place. *)
Theorem C54_v2_add_refuted : forall g grow h a l1 i j l2 x, (a < List.length h)%nat ->
  parsed g h a = Ok (l1 ++ i :: j :: l2) -> g (im_type i) = true -> inside h x -> elsewhere a x ->
  let d := wire2 g (view h x) in (ends_at i + len d <= len (arr h a))%nat ->
  exists h' i', add_m g grow h i [Some x] = Ok (h', i') /\
    let p := i2_payload (view h j) in i2_payload (view h' j) = firstn (len p) (skipn 4 d ++ skipn (len d - 4) p).
Proof.
  intros g grow h a l1 i j l2 x Ha E Hg Ix Ex d Hd.
  destruct (multi_split g l1 _ h _ i (j :: l2) (parsed_good h a Ha) E) as (o & l & A1 & A2 & A3 & _ & A5 & A6 & A7 & A8 & A9).
  destruct (A9 j l2 eq_refl) as (B1 & B2 & B3). cbn [s_arr s_off s_len] in *.
  assert (Gj : good h (im_payload j)). { split; rewrite B2; lia. }
  assert (Gi : inside h i) by (eapply within_inside; [exact Ha| |exact A7]; lia).
  destruct i as [t l0 n p c]. cbn [im_payload im_type] in *. apply inside_iff in Gi. destruct Gi as [Gp _].
  cbn [add_m add_loop_m]. rewrite Hg. cbn [negb]. rewrite (marshal2_ok g). fold d. unfold append.
  assert (Hfit : (s_off p + s_len p + len d <= len (arr h (s_arr p)))%nat) by (rewrite A1; exact Hd).
  replace (s_off p + s_len p + len d <=? len (arr h (s_arr p)))%nat with true by lia. cbn [bind]. eexists _, _. split; [reflexivity|].
  set (h' := firstn (s_arr p) h ++ _ :: _).
  assert (Ah : arr h' a = put (arr h a) (s_off p + s_len p) d). { unfold h'. rewrite arr_upd by lia. rewrite A1, Nat.eqb_refl. reflexivity. }
  assert (Ld : (4 <= len d)%nat). { unfold d. rewrite (len_wire g). destruct (view h x) as [tx ? ? ? ?]. cbn [mlen2]. destruct (g tx); lia. }
  destruct j as [t' l' n' p' c']. cbn [im_payload] in *. cbv zeta. rewrite !view_eq. cbn [i2_payload].
  assert (Gj' : good h' p'). { split; [unfold h'; rewrite app_length, firstn_length; cbn [List.length]; rewrite skipn_length; lia|]. rewrite B2, Ah, put_len by (rewrite <- A1; lia). lia. }
  apply nth_ext0. { rewrite firstn_length, app_length, !skipn_length, !read_len by assumption. lia. }
  rewrite read_len by exact Gj'. intros k Hk. rewrite nth_read by assumption. rewrite B2, Ah, B1. rewrite nth_firstn_lt by (rewrite read_len; assumption).
  rewrite A1 in Hfit. destruct (Nat.lt_ge_cases k (len d - 4)).
  - rewrite put_nth_in by lia. rewrite app_nth1 by (rewrite skipn_length; lia). rewrite nth_skipn'. f_equal. lia.
  - rewrite put_nth_out by lia. rewrite app_nth2 by (rewrite skipn_length; lia). rewrite nth_skipn', skipn_length, nth_read by (auto; lia). rewrite B1, B2. f_equal. lia.
Qed.

(** Two Bearer Contexts, each with an EPS Bearer ID, and a Recovery in one datagram: adding an F-TEID
    to the first one turns the EPS Bearer ID of the second one from 6 into 17, the last octet of
    the TEID. *)
Definition two_contexts : bytes := [93;0;5;0; 73;0;1;0;5; 93;0;5;0; 73;0;1;0;6; 3;0;1;0;7].
Definition fteid_ie : iem := IEM 87 9 0 (Slc 1 0 9) [].
Definition example_heap : heap := [two_contexts; [138; 0;0;0;17; 10;0;0;1]].
Example C54_example :
  (do ms <- parsed default_grouped example_heap 0;
   match ms with
   | [i; j; k] => do r <- add_m default_grouped (fun n => n) example_heap i [Some fteid_ie];
               Ok (map i2_payload (i2_children (view example_heap j)), map i2_payload (i2_children (view (fst r) j)), i2_payload (view (fst r) k))
   | _ => Panic
   end) = Ok ([[6]], [[17]], [7]).
Proof. vm_compute. reflexivity. Qed.
Example C54_remove_example :
  (do ms <- parsed default_grouped example_heap 0;
   match ms with
   | [i; j; _] => do r <- remove_m default_grouped (fun n => n) example_heap i 73 0;
               Ok (i2_payload (view (fst r) (snd r)), map i2_payload (i2_children (view (fst r) j)))
   | _ => Panic
   end) = Ok ([], [[6]]).
Proof. vm_compute. reflexivity. Qed.
Example C54_hypotheses : exists i j k, parsed default_grouped example_heap 0 = Ok ([] ++ i :: j :: [k]) /\
  default_grouped (im_type i) = true /\ inside example_heap fteid_ie /\ elsewhere 0 fteid_ie /\
  (ends_at i + len (wire2 default_grouped (view example_heap fteid_ie)) <= len (arr example_heap 0))%nat.
Proof.
  eexists _, _, _. split; [reflexivity|]. split; [reflexivity|]. split; [repeat constructor; cbn; lia|]. split; [repeat constructor; cbn; lia|]. vm_compute. lia.
Qed.
(** a Bearer Context at the end of the datagram has no room behind it *)
Definition last_heap : heap := [[3;0;1;0;7; 93;0;5;0;73;0;1;0;5]; [138; 0;0;0;17; 10;0;0;1]].
Example C54_no_room_hypotheses : exists i j, parsed default_grouped last_heap 0 = Ok ([i] ++ [j]) /\
  default_grouped (im_type j) = true /\ inside last_heap j /\ inside last_heap fteid_ie /\
  (len (arr last_heap (s_arr (im_payload j))) < ends_at j + len (wire2 default_grouped (view last_heap fteid_ie)))%nat.
Proof.
  eexists _, _. split; [reflexivity|]. split; [reflexivity|]. split; [repeat constructor; cbn; lia|]. split; [repeat constructor; cbn; lia|]. vm_compute. lia.
Qed.

Print Assumptions C54_v2_parse_view.
Print Assumptions C54_v2_remove_isolated.
Print Assumptions C54_v2_add_apart_partial.
Print Assumptions C54_v2_add_earlier_partial.
Print Assumptions C54_v2_add_no_room_partial.
Print Assumptions C54_v2_add_refuted.
