(** The printed forms determine what is printed. *)
From Coq Require Import String Ascii Lia DecimalString DecimalN HexadecimalString HexadecimalN Decimal Hexadecimal.
From Verif Require Import Base BaseLemmas V2IE TvIE V2Header V1Header V0Header MsgModel V2Msg V1Msg V0Msg MsgSelf IENames Print PrintSpec.
Open Scope string_scope.
Open Scope N_scope.
Open Scope list_scope.

(** ** Strings *)
Lemma app_s_assoc (a b c : string) : ((a ++ b) ++ c = a ++ (b ++ c))%string.
Proof. induction a as [|x a IH]; [reflexivity|]. cbn [String.append]. now rewrite IH. Qed.
Lemma app_s_inv (p x y : string) : (p ++ x = p ++ y)%string -> x = y.
Proof. induction p as [|c p IH]; [exact (fun H => H)|]. cbn [String.append]. intros H. injection H as H. auto. Qed.
Lemma app_s_nil (a : string) : (a ++ "")%string = a.
Proof. induction a as [|x a IH]; [reflexivity|]. cbn [String.append]. now rewrite IH. Qed.

Fixpoint lacks (c : ascii) (s : string) : bool :=
  match s with EmptyString => true | String x r => negb (Ascii.eqb x c) && lacks c r end.
Lemma lacks_app c a b : lacks c (a ++ b)%string = lacks c a && lacks c b.
Proof. induction a as [|x a IH]; [reflexivity|]. cbn [String.append lacks]. now rewrite IH, andb_assoc. Qed.
(** what stands before the first c *)
Lemma split_at c : forall a a' x x', lacks c a = true -> lacks c a' = true ->
  (a ++ String c x = a' ++ String c x')%string -> a = a' /\ x = x'.
Proof.
  induction a as [|u a IH]; intros [|v a'] x x' La La' E; cbn [String.append lacks] in *.
  - injection E as E. auto.
  - injection E as -> E. rewrite Ascii.eqb_refl in La'. discriminate.
  - injection E as -> E. rewrite Ascii.eqb_refl in La. discriminate.
  - injection E as -> E. apply andb_prop in La as [_ La]. apply andb_prop in La' as [_ La'].
    destruct (IH a' x x' La La' E) as [-> ->]. auto.
Qed.

(** ** Numbers *)
Definition digit_c (c : ascii) : bool :=
  let n := N_of_ascii c in ((48 <=? n) && (n <=? 57)) || ((97 <=? n) && (n <=? 102)).
Fixpoint all_c (p : ascii -> bool) (s : string) : bool := match s with EmptyString => true | String c r => p c && all_c p r end.
Lemma all_lacks c s : digit_c c = false -> all_c digit_c s = true -> lacks c s = true.
Proof.
  intros Hc. induction s as [|x s IH]; [reflexivity|]. cbn [all_c lacks]. intros H. apply andb_prop in H as [Hx H]. rewrite IH by exact H.
  destruct (Ascii.eqb_spec x c) as [->|]; [congruence|reflexivity].
Qed.
Lemma all_app p a b : all_c p (a ++ b)%string = all_c p a && all_c p b.
Proof. induction a as [|x a IH]; [reflexivity|]. cbn [String.append all_c]. now rewrite IH, andb_assoc. Qed.

Lemma dec_digits u : all_c digit_c (DecimalString.NilEmpty.string_of_uint u) = true.
Proof. induction u; cbn [DecimalString.NilEmpty.string_of_uint all_c]; try reflexivity; rewrite IHu; reflexivity. Qed.
Lemma hex_digits u : all_c digit_c (HexadecimalString.NilEmpty.string_of_uint u) = true.
Proof. induction u; cbn [HexadecimalString.NilEmpty.string_of_uint all_c]; try reflexivity; rewrite IHu; reflexivity. Qed.
Lemma pr_d_digits n : all_c digit_c (pr_d n) = true.
Proof. unfold pr_d, DecimalString.NilZero.string_of_uint. destruct (N.to_uint n); try reflexivity; apply (dec_digits (_ _)). Qed.
Lemma pr_x_digits n : all_c digit_c (pr_x n) = true.
Proof. unfold pr_x, HexadecimalString.NilZero.string_of_uint. destruct (N.to_hex_uint n); try reflexivity; apply (hex_digits (_ _)). Qed.

Lemma dec_nonnil n : N.to_uint n <> Decimal.Nil.
Proof. intros H. pose proof (DecimalN.Unsigned.of_to n) as E. rewrite H in E. cbn in E. subst n. discriminate. Qed.
Lemma hex_nonnil n : N.to_hex_uint n <> Hexadecimal.Nil.
Proof. intros H. pose proof (HexadecimalN.Unsigned.of_to n) as E. rewrite H in E. cbn in E. subst n. discriminate. Qed.
Lemma pr_d_inj m n : pr_d m = pr_d n -> m = n.
Proof.
  unfold pr_d. intros H. apply (f_equal DecimalString.NilZero.uint_of_string) in H.
  rewrite !DecimalString.NilZero.usu in H by apply dec_nonnil. injection H as H. now apply DecimalN.Unsigned.to_uint_inj.
Qed.
Definition hexval (s : string) : option N := option_map N.of_hex_uint (HexadecimalString.NilEmpty.uint_of_string s).
Lemma hexval_x n : hexval (pr_x n) = Some n.
Proof.
  unfold hexval, pr_x. pose proof (HexadecimalString.NilZero.usu (N.to_hex_uint n) (hex_nonnil n)) as H.
  unfold HexadecimalString.NilZero.uint_of_string in H.
  destruct (HexadecimalString.NilZero.string_of_uint (N.to_hex_uint n)); [discriminate|]. rewrite H. cbn [option_map].
  now rewrite HexadecimalN.Unsigned.of_to.
Qed.
Lemma hexval_zeros k s : hexval (zeros_s k ++ s)%string = hexval s.
Proof.
  induction k as [|k IH]; [reflexivity|]. rewrite <- IH. cbn [zeros_s String.append]. unfold hexval.
  cbn [HexadecimalString.NilEmpty.uint_of_string HexadecimalString.uint_of_char option_map].
  destruct (HexadecimalString.NilEmpty.uint_of_string (zeros_s k ++ s)); reflexivity.
Qed.
Lemma pr_x_inj m n : pr_x m = pr_x n -> m = n.
Proof. intros H. apply (f_equal hexval) in H. rewrite !hexval_x in H. now injection H. Qed.
Lemma pr_sx_inj m n : pr_sx m = pr_sx n -> m = n.
Proof. intros H. apply app_s_inv in H. now apply pr_x_inj. Qed.
Lemma pr_0x_inj w m n : pr_0x w m = pr_0x w n -> m = n.
Proof. intros H. apply app_s_inv in H. apply (f_equal hexval) in H. rewrite !hexval_zeros, !hexval_x in H. now injection H. Qed.

Lemma lacks_zeros c k : digit_c c = false -> lacks c (zeros_s k) = true.
Proof. intros Hc. apply all_lacks; [exact Hc|]. induction k as [|k IH]; [reflexivity|]. cbn [zeros_s all_c]. now rewrite IH. Qed.
Lemma lacks_d c n : digit_c c = false -> lacks c (pr_d n) = true.
Proof. intros Hc. apply all_lacks; [exact Hc|apply pr_d_digits]. Qed.
Lemma lacks_x c n : digit_c c = false -> lacks c (pr_x n) = true.
Proof. intros Hc. apply all_lacks; [exact Hc|apply pr_x_digits]. Qed.
Lemma lacks_sx c n : digit_c c = false -> lacks c "x" = true -> lacks c (pr_sx n) = true.
Proof.
  intros Hc Hx. unfold pr_sx. rewrite lacks_app, lacks_x by exact Hc. rewrite andb_true_r. change "0x" with ("0" ++ "x")%string.
  rewrite lacks_app, Hx, andb_true_r. apply (lacks_zeros c 1), Hc.
Qed.
Lemma lacks_0x c w n : digit_c c = false -> lacks c "x" = true -> lacks c (pr_0x w n) = true.
Proof.
  intros Hc Hx. unfold pr_0x. rewrite !lacks_app, lacks_x, lacks_zeros by exact Hc. rewrite andb_true_r. change "0x" with ("0" ++ "x")%string.
  rewrite lacks_app, Hx, andb_true_r. apply (lacks_zeros c 1), Hc.
Qed.

(** a number up to the comma behind it *)
Lemma cut_d m n x y : (pr_d m ++ String "," x = pr_d n ++ String "," y)%string -> m = n /\ x = y.
Proof. intros H. apply split_at in H as [H ->]; [|now apply lacks_d..]. split; [now apply pr_d_inj|reflexivity]. Qed.
Lemma cut_sx m n x y : (pr_sx m ++ String "," x = pr_sx n ++ String "," y)%string -> m = n /\ x = y.
Proof. intros H. apply split_at in H as [H ->]; [|now apply lacks_sx..]. split; [now apply pr_sx_inj|reflexivity]. Qed.
Lemma cut_0x w m n x y : (pr_0x w m ++ String "," x = pr_0x w n ++ String "," y)%string -> m = n /\ x = y.
Proof. intros H. apply split_at in H as [H ->]; [|now apply lacks_0x..]. split; [now apply pr_0x_inj in H|reflexivity]. Qed.
Lemma cut_x m n x y : (pr_x m ++ String "}" x = pr_x n ++ String "}" y)%string -> m = n /\ x = y.
Proof. intros H. apply split_at in H as [H ->]; [|now apply lacks_x..]. split; [now apply pr_x_inj|reflexivity]. Qed.

(** ** Byte slices *)
Lemma concat_cons sep a l : String.concat sep (a :: l) = match l with [] => a | _ => (a ++ sep ++ String.concat sep l)%string end.
Proof. destruct l; reflexivity. Qed.
(** elements without the first character of the separator *)
Lemma concat_inj : forall l l' : bytes, String.concat ", " (map pr_sx l) = String.concat ", " (map pr_sx l') -> l = l'.
Proof.
  induction l as [|a l IH]; intros [|a' l'] H; [reflexivity|..].
  - cbn [map] in H. rewrite concat_cons in H. destruct (map pr_sx l'); discriminate.
  - cbn [map] in H. rewrite concat_cons in H. destruct (map pr_sx l); discriminate.
  - cbn [map] in H. rewrite !concat_cons in H. destruct l as [|b l]; destruct l' as [|b' l']; cbn [map] in H.
    + now rewrite (pr_sx_inj _ _ H).
    + exfalso. assert (L : lacks "," (pr_sx a) = true) by now apply lacks_sx. rewrite H in L. rewrite lacks_app in L.
      apply andb_prop in L as [_ L]. discriminate.
    + exfalso. assert (L : lacks "," (pr_sx a') = true) by now apply lacks_sx. rewrite <- H in L. rewrite lacks_app in L.
      apply andb_prop in L as [_ L]. discriminate.
    + change (pr_sx b :: map pr_sx l) with (map pr_sx (b :: l)) in H. change (pr_sx b' :: map pr_sx l') with (map pr_sx (b' :: l')) in H.
      cbn [String.append] in H. apply cut_sx in H as [-> H]. apply (app_s_inv " ") in H. now rewrite (IH _ H).
Qed.
Lemma lacks_concat l : lacks "}" (String.concat ", " (map pr_sx l)) = true.
Proof.
  induction l as [|a l IH]; [reflexivity|]. cbn [map]. rewrite concat_cons. destruct (map pr_sx l); [now apply lacks_sx|].
  rewrite !lacks_app, IH, lacks_sx by reflexivity. reflexivity.
Qed.
Lemma cut_v z z' p p' x y : (pr_v z p ++ x = pr_v z' p' ++ y)%string -> p = p' /\ x = y.
Proof.
  assert (F : forall q, pr_v false q = ("[]byte{" ++ String.concat ", " (map pr_sx q) ++ "}")%string) by (intros [|c q]; reflexivity).
  assert (G : forall z q, pr_v z q = pr_v false q \/ (q = [] /\ pr_v z q = "[]byte(nil)")) by (intros [] [|c q]; auto).
  intros H. destruct (G z p) as [->|[Ep ->]] in H; destruct (G z' p') as [->|[Ep' ->]] in H.
  - rewrite !F in H. rewrite !app_s_assoc in H. apply app_s_inv in H. cbn [String.append] in H.
    apply split_at in H as [H ->]; [|apply lacks_concat..]. apply concat_inj in H. auto.
  - rewrite F in H. discriminate.
  - rewrite F in H. discriminate.
  - apply app_s_inv in H. subst. auto.
Qed.

(** two digits for each octet *)
Lemma x2_pair : forallb (fun x => match pr_x2 x with String a (String b EmptyString) => digit_c a && digit_c b &&
  match hexval (pr_x2 x) with Some n => n =? x | None => false end | _ => false end) (below 256) = true.
Proof. vm_compute. reflexivity. Qed.
Lemma x2_two x : x < 256 -> exists a b, pr_x2 x = String a (String b EmptyString) /\ digit_c a = true /\ digit_c b = true /\ hexval (pr_x2 x) = Some x.
Proof.
  intros H. pose proof x2_pair as F. rewrite forallb_forall in F. assert (I : In x (below 256)) by (apply below_complete; exact H). specialize (F x I).
  destruct (pr_x2 x) as [|a [|b [|c r]]]; try discriminate. apply andb_prop in F as [F E]. apply andb_prop in F as [A B].
  exists a, b. split; [reflexivity|]. split; [exact A|]. split; [exact B|]. destruct (hexval _) as [n|]; [|discriminate].
  apply N.eqb_eq in E. now subst.
Qed.
Lemma concat_nil_cons a l : String.concat "" (a :: l) = (a ++ String.concat "" l)%string.
Proof. rewrite concat_cons. destruct l; [now rewrite app_s_nil|reflexivity]. Qed.
Lemma concat2_inj : forall l l', bytes_ok l -> bytes_ok l' -> String.concat "" (map pr_x2 l) = String.concat "" (map pr_x2 l') -> l = l'.
Proof.
  induction l as [|a l IH]; intros [|a' l'] Hl Hl' H; [reflexivity|..]; cbn [map] in H; rewrite ?concat_nil_cons in H.
  - inversion Hl' as [|? ? Ha' Hr']; subst. destruct (x2_two a' Ha') as (u & v & E & _). rewrite E in H. discriminate.
  - inversion Hl as [|? ? Ha Hr]; subst. destruct (x2_two a Ha) as (u & v & E & _). rewrite E in H. discriminate.
  - inversion Hl' as [|? ? Ha' Hr']; subst. inversion Hl as [|? ? Ha Hr]; subst.
    destruct (x2_two a Ha) as (u & v & E & _ & _ & V). destruct (x2_two a' Ha') as (u' & v' & E' & _ & _ & V').
    rewrite E, E' in *. cbn [String.append] in H. injection H as -> -> H. rewrite V in V'. injection V' as ->. f_equal. auto.
Qed.
Lemma lacks_sxb c b : bytes_ok b -> digit_c c = false -> lacks c "x" = true -> lacks c (pr_sxb b) = true.
Proof.
  intros Hb Hc Hx. unfold pr_sxb. destruct b as [|a b]; [reflexivity|]. rewrite lacks_app. apply andb_true_intro. split.
  { change "0x" with ("0" ++ "x")%string. rewrite lacks_app, Hx, andb_true_r. apply (lacks_zeros c 1), Hc. }
  apply all_lacks; [exact Hc|]. induction Hb as [|x l Hx' Hl IH]; [reflexivity|]. cbn [map]. rewrite concat_nil_cons, all_app, IH, andb_true_r.
  destruct (x2_two x Hx') as (u & v & -> & A & B & _). cbn [all_c]. now rewrite A, B.
Qed.
Lemma pr_sxb_inj a b : bytes_ok a -> bytes_ok b -> pr_sxb a = pr_sxb b -> a = b.
Proof.
  intros Ha Hb H. unfold pr_sxb in H. destruct a as [|x a]; destruct b as [|y b]; try reflexivity; try discriminate.
  apply app_s_inv in H. now apply concat2_inj.
Qed.

(** ** IEs *)
Definition known_ok (l : list (N * string)) : bool := forallb (fun p => lacks ":" (snd p)) l.
Lemma in_names_ok l t : known_ok l = true -> lacks ":" (in_names l t) = true.
Proof.
  intros H. unfold in_names. destruct (find _ l) as [p|] eqn:E; [|reflexivity]. unfold known_ok in H. rewrite forallb_forall in H.
  apply H. now apply find_some in E.
Qed.
Lemma names2_ok t : lacks ":" (ie_name2 t) = true.
Proof. apply in_names_ok. vm_compute. reflexivity. Qed.
Lemma names1_ok t : lacks ":" (ie_name1 t) = true.
Proof. apply in_names_ok. vm_compute. reflexivity. Qed.
Lemma names0_ok t : lacks ":" (ie_name0 t) = true.
Proof. apply in_names_ok. vm_compute. reflexivity. Qed.

(** the text of an IE shows where it ends *)
Lemma ie2_cut z z' i j x y : (ie_string2 z i ++ x = ie_string2 z' j ++ y)%string -> same_values i j /\ x = y.
Proof.
  unfold ie_string2. rewrite !app_s_assoc. intros H. apply app_s_inv in H. cbn [String.append] in H.
  apply split_at in H as [_ H]; [|apply names2_ok..]. apply (app_s_inv " {Type: ") in H.
  apply cut_d in H as [T H]. apply (app_s_inv " Length: ") in H. apply cut_d in H as [L H].
  apply (app_s_inv " Instance: ") in H. apply cut_sx in H as [N H]. apply (app_s_inv " Payload: ") in H.
  apply cut_v in H as [P H]. apply (app_s_inv "}}") in H. split; [|exact H]. split; [exact T|]. split; [exact L|]. split; [|exact P].
  unfold i2_instance in N. change 15 with (N.ones 4) in N. now rewrite !N.land_ones in N.
Qed.
Lemma ie1_cut nm z z' i j x y : (forall t, lacks ":" (nm t) = true) -> (ie_string1 nm z i ++ x = ie_string1 nm z' j ++ y)%string -> i = j /\ x = y.
Proof.
  intros Hn. unfold ie_string1. rewrite !app_s_assoc. intros H. apply app_s_inv in H. cbn [String.append] in H.
  apply split_at in H as [_ H]; [|apply Hn..]. apply (app_s_inv " {Type: ") in H.
  apply cut_d in H as [T H]. apply (app_s_inv " Length: ") in H. apply cut_d in H as [L H].
  apply (app_s_inv " Payload: ") in H. apply cut_v in H as [P H]. apply (app_s_inv "}}") in H. split; [|exact H].
  destruct i, j. cbn in T, L, P. now subst.
Qed.

(** ** Headers; the closing brace is left out *)
Definition open2 (z : bool) (h : hdr2) : string :=
  ("{Flags: " ++ pr_sx (h2_flags h) ++ ", Type: " ++ pr_d (h2_type h) ++ ", Length: " ++ pr_d (h2_length h) ++
  ", TEID: " ++ pr_sx (h2_teid h) ++ ", SequenceNumber: " ++ pr_sx (h2_seq h) ++ ", Spare: " ++ pr_d (h2_spare h) ++
  ", Payload: " ++ pr_v z (h2_payload h))%string.
Lemma open2_cut z z' h k x y : (open2 z h ++ x = open2 z' k ++ y)%string -> h = k /\ x = y.
Proof.
  unfold open2. rewrite !app_s_assoc. intros H. apply app_s_inv in H. cbn [String.append] in H.
  apply cut_sx in H as [A H]. apply (app_s_inv " Type: ") in H. apply cut_d in H as [B H]. apply (app_s_inv " Length: ") in H.
  apply cut_d in H as [C H]. apply (app_s_inv " TEID: ") in H. apply cut_sx in H as [D H]. apply (app_s_inv " SequenceNumber: ") in H.
  apply cut_sx in H as [E H]. apply (app_s_inv " Spare: ") in H. apply cut_d in H as [F H]. apply (app_s_inv " Payload: ") in H.
  apply cut_v in H as [P H]. split; [|exact H]. destruct h, k. cbn in A, B, C, D, E, F, P. now subst.
Qed.
Lemma open2_string z h : hdr_string2 z h = (open2 z h ++ "}")%string.
Proof. unfold hdr_string2, open2. now rewrite !app_s_assoc. Qed.

Definition open0 (z : bool) (h : hdr0) : string :=
  ("{Flags: " ++ pr_sx (h0_flags h) ++ ", Type: " ++ pr_sx (h0_type h) ++ ", Length: " ++ pr_d (h0_length h) ++
  ", SequenceNumber: " ++ pr_0x 4 (h0_seq h) ++ ", FlowLabel: " ++ pr_0x 4 (h0_label h) ++
  ", SndcpNumber: " ++ pr_0x 2 (h0_sndcp h) ++ ", TID: " ++ pr_0x 16 (h0_tid h) ++ ", Payload: " ++ pr_v z (h0_payload h))%string.
Lemma open0_cut z z' h k x y : (open0 z h ++ x = open0 z' k ++ y)%string -> h = k /\ x = y.
Proof.
  unfold open0. rewrite !app_s_assoc. intros H. apply app_s_inv in H. cbn [String.append] in H.
  apply cut_sx in H as [A H]. apply (app_s_inv " Type: ") in H. apply cut_sx in H as [B H]. apply (app_s_inv " Length: ") in H.
  apply cut_d in H as [C H]. apply (app_s_inv " SequenceNumber: ") in H. apply cut_0x in H as [D H]. apply (app_s_inv " FlowLabel: ") in H.
  apply cut_0x in H as [E H]. apply (app_s_inv " SndcpNumber: ") in H. apply cut_0x in H as [F H]. apply (app_s_inv " TID: ") in H.
  apply cut_0x in H as [G H]. apply (app_s_inv " Payload: ") in H.
  apply cut_v in H as [P H]. split; [|exact H]. destruct h, k. cbn in A, B, C, D, E, F, G, P. now subst.
Qed.
Lemma open0_string z h : hdr_string0 z h = (open0 z h ++ "}")%string.
Proof. unfold hdr_string0, open0. now rewrite !app_s_assoc. Qed.

Lemma ext_cut e f x y : bytes_ok (eh_content e) -> bytes_ok (eh_content f) -> (ext_string e ++ x = ext_string f ++ y)%string -> e = f /\ x = y.
Proof.
  intros He Hf. unfold ext_string. rewrite !app_s_assoc. intros H. apply app_s_inv in H. cbn [String.append] in H.
  apply cut_sx in H as [A H]. apply (app_s_inv " Length: ") in H. apply cut_d in H as [B H]. apply (app_s_inv " Content: ") in H.
  apply split_at in H as [C H]; [|now apply lacks_sxb..]. apply pr_sxb_inj in C; [|exact He|exact Hf].
  apply (app_s_inv " NextType: ") in H. apply cut_x in H as [D H]. split; [|exact H]. destruct e, f. cbn in A, B, C, D. now subst.
Qed.

(** ** Lists: texts that show where they end, joined, with a bracket behind *)
Section Join.
Context {A : Type} (R : A -> A -> Prop) (P : A -> string -> Prop) (c : ascii) (sep : string).
Context (cut : forall a b s t x y, P a s -> P b t -> (s ++ x = t ++ y)%string -> R a b /\ x = y).
Context (start : forall a s, P a s -> exists h r, s = String h r /\ Ascii.eqb h "]" = false).
Context (Hc : Ascii.eqb c "]" = false).
Lemma join_head s ss : exists t, (String.concat (String c sep) (s :: ss) = s ++ t)%string /\
  (ss = [] /\ t = "" \/ ss <> [] /\ t = String c (sep ++ String.concat (String c sep) ss)).
Proof.
  destruct ss as [|s' ss]; [exists ""; rewrite app_s_nil; auto|].
  exists (String c (sep ++ String.concat (String c sep) (s' :: ss))%string). rewrite concat_cons. split; [reflexivity|right; split; [discriminate|reflexivity]].
Qed.
Lemma join_cut l ss : Forall2 P l ss -> forall l' ss' x y, Forall2 P l' ss' ->
  (String.concat (String c sep) ss ++ String "]" x = String.concat (String c sep) ss' ++ String "]" y)%string -> Forall2 R l l' /\ x = y.
Proof.
  induction 1 as [|a s l ss Ha Hl IH]; intros l' ss' x y Hl' E.
  - destruct Hl' as [|a' s' l' ss' Ha' Hl']; [cbn in E; injection E as ->; auto|]. exfalso.
    destruct (join_head s' ss') as (t & Et & _). rewrite Et in E. destruct (start _ _ Ha') as (h & r & -> & Hh).
    cbn in E. injection E as <- _. now rewrite Ascii.eqb_refl in Hh.
  - destruct Hl' as [|a' s' l' ss' Ha' Hl'].
    + exfalso. destruct (join_head s ss) as (t & Et & _). rewrite Et in E. destruct (start _ _ Ha) as (h & r & -> & Hh).
      cbn in E. injection E as -> _. now rewrite Ascii.eqb_refl in Hh.
    + destruct (join_head s ss) as (t & Et & Ht). destruct (join_head s' ss') as (t' & Et' & Ht'). rewrite Et, Et', !app_s_assoc in E.
      destruct (cut _ _ _ _ _ _ Ha Ha' E) as [HR E']. destruct Ht as [[-> ->]|[Hn ->]]; destruct Ht' as [[-> ->]|[Hn' ->]].
      * inversion Hl; subst. inversion Hl'; subst. cbn in E'. injection E' as ->. auto.
      * cbn in E'. injection E' as <- _. now rewrite Ascii.eqb_refl in Hc.
      * cbn in E'. injection E' as -> _. now rewrite Ascii.eqb_refl in Hc.
      * cbn [String.append] in E'. injection E' as E'. rewrite !app_s_assoc in E'. apply app_s_inv in E'.
        destruct (IH _ _ _ _ Hl' E') as [HF ->]. auto.
Qed.
End Join.

Definition open1 (z : bool) (h : hdr1) : string :=
  ("{Flags: " ++ pr_sx (h1_flags h) ++ ", Type: " ++ pr_sx (h1_type h) ++ ", Length: " ++ pr_d (h1_length h) ++
  ", TEID: " ++ pr_0x 8 (h1_teid h) ++ ", SequenceNumber: " ++ pr_0x 4 (h1_seq h) ++ ", NPDUNumber: " ++ pr_sx (h1_npdu h) ++
  ", ExtensionHeaderType: " ++ pr_sx (h1_next h) ++
  ", ExtensionHeaders: [" ++ String.concat " " (map ext_string (h1_exts h)) ++ "]" ++
  ", Payload: " ++ pr_v z (h1_payload h))%string.
Definition exts_bytes (h : hdr1) : Prop := Forall (fun e => bytes_ok (eh_content e)) (h1_exts h).
Lemma exts_printed l : Forall (fun e => bytes_ok (eh_content e)) l ->
  Forall2 (fun e s => bytes_ok (eh_content e) /\ s = ext_string e) l (map ext_string l).
Proof. induction 1; cbn [map]; auto. Qed.
Lemma forall2_eq {A} (l l' : list A) : Forall2 eq l l' -> l = l'.
Proof. induction 1; congruence. Qed.
Lemma open1_cut z z' h k x y : exts_bytes h -> exts_bytes k -> (open1 z h ++ x = open1 z' k ++ y)%string -> h = k /\ x = y.
Proof.
  intros Hh Hk. unfold open1. rewrite !app_s_assoc. intros H. apply app_s_inv in H. cbn [String.append] in H.
  apply cut_sx in H as [A H]. apply (app_s_inv " Type: ") in H. apply cut_sx in H as [B H]. apply (app_s_inv " Length: ") in H.
  apply cut_d in H as [C H]. apply (app_s_inv " TEID: ") in H. apply cut_0x in H as [D H]. apply (app_s_inv " SequenceNumber: ") in H.
  apply cut_0x in H as [E H]. apply (app_s_inv " NPDUNumber: ") in H. apply cut_sx in H as [F H]. apply (app_s_inv " ExtensionHeaderType: ") in H.
  apply cut_sx in H as [G H]. apply (app_s_inv " ExtensionHeaders: [") in H.
  apply (join_cut eq (fun e s => bytes_ok (eh_content e) /\ s = ext_string e)) with (l := h1_exts h) (l' := h1_exts k) in H.
  - destruct H as [X H]. apply forall2_eq in X. apply (app_s_inv ", Payload: ") in H.
    apply cut_v in H as [P H]. split; [|exact H]. destruct h, k. cbn in A, B, C, D, E, F, G, X, P. now subst.
  - intros a b s t u v [Ba ->] [Bb ->]. apply ext_cut; assumption.
  - intros a s [_ ->]. exists "{"%char. eexists. split; reflexivity.
  - reflexivity.
  - apply exts_printed, Hh.
  - apply exts_printed, Hk.
Qed.
Lemma open1_string z h : hdr_string1 z h = (open1 z h ++ "}")%string.
Proof. unfold hdr_string1, open1. now rewrite !app_s_assoc. Qed.

(** ** Messages *)
Lemma trim_app s : trim_brace (s ++ "}") = s.
Proof. induction s as [|c s IH]; [reflexivity|]. cbn [String.append trim_brace]. rewrite IH. destruct s; reflexivity. Qed.

Section Fields.
Context {I : Type} (R : I -> I -> Prop) (str : bool -> I -> string).
Context (cut : forall z z' i j x y, (str z i ++ x = str z' j ++ y)%string -> R i j /\ x = y).
Context (brace : forall z i, exists r, str z i = String "{" r).
Lemma or_nil_cut z z' o p x y : (or_nil str z o ++ x = or_nil str z' p ++ y)%string -> same_opt R o p /\ x = y.
Proof.
  destruct o as [i|]; destruct p as [j|]; cbn [or_nil same_opt]; intros H.
  - eapply cut; exact H.
  - destruct (brace z i) as [r E]. rewrite E in H. discriminate.
  - destruct (brace z' j) as [r E]. rewrite E in H. discriminate.
  - apply app_s_inv in H. auto.
Qed.
Lemma list_printed l : forall z, Forall2 (fun o s => exists b, s = or_nil str b o) l (list_strings str z l).
Proof. induction l as [|o l IH]; intros z; cbn [list_strings]; constructor; [eauto|apply IH]. Qed.
Lemma list_cut l l' z z' x y :
  (String.concat ", " (list_strings str z l) ++ String "]" x = String.concat ", " (list_strings str z' l') ++ String "]" y)%string ->
  Forall2 (same_opt R) l l' /\ x = y.
Proof.
  intros H. apply (join_cut (same_opt R) (fun o s => exists b, s = or_nil str b o)) with (l := l) (l' := l') in H; [exact H|..].
  - intros a b s t u v [ba ->] [bb ->]. apply or_nil_cut.
  - intros [i|] s [b ->]; cbn [or_nil]; [destruct (brace b i) as [r ->]|]; eexists _, _; split; reflexivity.
  - reflexivity.
  - apply list_printed.
  - apply list_printed.
Qed.

Context (R1 : I -> I -> Prop) (one : string -> (nat -> bool) -> option I -> string).
Context (one_cut : forall f z z' o p x y, (one f z o ++ x = one f z' p ++ y)%string -> same_opt R1 o p /\ x = y).
Context (one_brace : forall f z o, exists r, one f z o = String "{" r).
(** the contents of a field, as far as printed *)
Definition same_field (k : fkind) (l l' : list (option I)) : Prop :=
  match k with FSingle => same_opt R1 (hd None l) (hd None l') | FList => Forall2 (same_opt R) l l' end.
Lemma field_cut f k z z' l l' x y : (pretty_field one str f k z l ++ x = pretty_field one str f k z' l' ++ y)%string ->
  same_field k l l' /\ x = y.
Proof.
  destruct k; cbn [pretty_field same_field]; [apply one_cut|]. rewrite !app_s_assoc. intros H. apply app_s_inv in H. apply app_s_inv in H.
  apply app_s_inv in H. cbn [String.append] in H. apply list_cut in H as [HF H]. split; [exact HF|]. now injection H.
Qed.
Lemma fields_cut fs m m' : forall z z' x y,
  (String.concat ", " (pretty_fields one str fs z m) ++ String "]" x = String.concat ", " (pretty_fields one str fs z' m') ++ String "]" y)%string ->
  Forall (fun f => same_field (snd f) (fget m (fst f)) (fget m' (fst f))) fs /\ x = y.
Proof.
  induction fs as [|[f k] fs IH]; intros z z' x y H; [cbn in H; injection H as ->; auto|]. cbn [pretty_fields] in H.
  destruct (join_head "," " " (pretty_field one str f k (z O) (fget m f)) (pretty_fields one str fs (fun n => z (S n)) m)) as (t & Et & Ht).
  destruct (join_head "," " " (pretty_field one str f k (z' O) (fget m' f)) (pretty_fields one str fs (fun n => z' (S n)) m')) as (t' & Et' & Ht').
  rewrite Et, Et', !app_s_assoc in H. apply field_cut in H as [HS H]. destruct fs as [|p fs].
  - destruct Ht as [[_ ->]|[N _]]; [|now destruct N]. destruct Ht' as [[_ ->]|[N _]]; [|now destruct N]. cbn in H. injection H as ->. auto.
  - destruct Ht as [[N _]|[_ ->]]; [destruct p; discriminate|]. destruct Ht' as [[N _]|[_ ->]]; [destruct p; discriminate|].
    cbn [String.append] in H. apply (app_s_inv ", ") in H. apply IH in H as [HF ->]. auto.
Qed.
End Fields.

(** one field of one IE *)
Lemma ie2_brace z i : exists r, ie_string2 z i = String "{" r.
Proof. eexists. reflexivity. Qed.
Lemma ie1_brace nm z i : exists r, ie_string1 nm z i = String "{" r.
Proof. eexists. reflexivity. Qed.
Lemma one1_cut nm f z z' o p x y : (forall t, lacks ":" (nm t) = true) ->
  (pretty_ie1 nm f z o ++ x = pretty_ie1 nm f z' p ++ y)%string -> same_opt eq o p /\ x = y.
Proof.
  intros Hn. unfold pretty_ie1. rewrite !app_s_assoc. intros H. apply app_s_inv in H. apply app_s_inv in H. apply app_s_inv in H.
  apply (or_nil_cut eq (ie_string1 nm)) in H; [|intros; eapply ie1_cut; eassumption|apply ie1_brace].
  destruct H as [HS H]. apply app_s_inv in H. auto.
Qed.
Lemma forall2_map_some {A} (R : A -> A -> Prop) l l' : Forall2 (same_opt R) (map Some l) (map Some l') -> Forall2 R l l'.
Proof.
  revert l'. induction l as [|a l IH]; intros [|a' l'] H; cbn [map] in H; inversion H; subst; constructor; auto.
Qed.
Lemma one2_cut g f z z' o p x y : (pretty_ie2 g f z o ++ x = pretty_ie2 g f z' p ++ y)%string ->
  same_opt (same_shown g) o p /\ x = y.
Proof.
  unfold pretty_ie2, same_shown. destruct o as [i|]; destruct p as [j|]; cbn [same_opt].
  - destruct (g (i2_type i)) eqn:Gi; destruct (g (i2_type j)) eqn:Gj; rewrite !app_s_assoc; intros H.
    + apply app_s_inv in H. apply app_s_inv in H. apply app_s_inv in H. cbn [String.append] in H.
      apply (list_cut same_values ie_string2) in H; [|intros; eapply ie2_cut; eassumption|apply ie2_brace].
      destruct H as [HF H]. apply (app_s_inv "}") in H. split; [|exact H]. split; [reflexivity|]. now apply forall2_map_some.
    + apply app_s_inv in H. apply app_s_inv in H. discriminate.
    + apply app_s_inv in H. apply app_s_inv in H. discriminate.
    + apply app_s_inv in H. apply app_s_inv in H. apply app_s_inv in H. apply ie2_cut in H as [HS H]. apply app_s_inv in H. auto.
  - destruct (g (i2_type i)); rewrite !app_s_assoc; intros H; apply app_s_inv in H; apply app_s_inv in H; discriminate.
  - destruct (g (i2_type j)); rewrite !app_s_assoc; intros H; apply app_s_inv in H; apply app_s_inv in H; discriminate.
  - intros H. apply app_s_inv in H. auto.
Qed.

(** ** Prettify *)
Lemma pretty_cut (hd1 hd2 o1 o2 n1 n2 : string) fs1 fs2 : hd1 = (o1 ++ "}")%string -> hd2 = (o2 ++ "}")%string ->
  lacks ":" n1 = true -> lacks ":" n2 = true -> pretty n1 hd1 fs1 = pretty n2 hd2 fs2 ->
  (o1 ++ ", IEs: [" ++ String.concat ", " fs1 ++ String "]" "}" = o2 ++ ", IEs: [" ++ String.concat ", " fs2 ++ String "]" "}")%string.
Proof.
  intros -> -> L1 L2. unfold pretty. rewrite !trim_app. intros H. apply app_s_inv in H. cbn [String.append] in H.
  apply split_at in H as [_ H]; [|assumption..]. apply (app_s_inv " ") in H. exact H.
Qed.
Lemma lookup_ok tbl : forallb (fun p : string * string => lacks ":" (snd p)) tbl = true -> forall s n, lookup s tbl = Some n -> lacks ":" n = true.
Proof.
  induction tbl as [|[k v] tbl IH]; [discriminate|]. cbn [forallb lookup snd]. intros H s n E. apply andb_prop in H as [Hv H].
  destruct (String.eqb k s); [now injection E as <-|eauto].
Qed.
Lemma dec8_ok : forallb (fun t => lacks ":" (dec8 t)) (below 256) = true.
Proof. vm_compute. reflexivity. Qed.
Lemma name_ok tbl s t : forallb (fun p : string * string => lacks ":" (snd p)) tbl = true -> t < 256 -> lacks ":" (name_of tbl s t) = true.
Proof.
  intros Ht H. unfold name_of. destruct (lookup s tbl) as [n|] eqn:E; [eapply lookup_ok; eassumption|].
  pose proof dec8_ok as D. rewrite forallb_forall in D. assert (I : In t (below 256)) by (apply below_complete; exact H).
  rewrite !lacks_app, (D t I). reflexivity.
Qed.
Lemma msgs2_ok : forallb (fun p : string * string => lacks ":" (snd p)) names2 = true. Proof. vm_compute. reflexivity. Qed.
Lemma msgs1_ok : forallb (fun p : string * string => lacks ":" (snd p)) names1 = true. Proof. vm_compute. reflexivity. Qed.
Lemma msgs0_ok : forallb (fun p : string * string => lacks ":" (snd p)) names0 = true. Proof. vm_compute. reflexivity. Qed.
