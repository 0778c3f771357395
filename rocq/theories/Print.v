(** What IEs, headers and messages print: Name, String and Prettify of gtpv{0,1,2}.  fmt is
    modelled on the verbs used here.  A byte slice without elements prints as []byte(nil) if it
    is nil and as []byte{} otherwise; the model has one empty payload, so every printing
    function is told by booleans [z] whether the empty payloads it meets are nil.  A nil Header
    is outside of the model.  No proofs here. *)
From Coq Require Import String Ascii DecimalString HexadecimalString.
From Verif Require Import Base V2IE TvIE V2Header V1Header V0Header MsgModel V2Msg V1Msg V0Msg MsgSelf IENames.
Open Scope string_scope.
Open Scope N_scope.
Open Scope list_scope.

(** ** package fmt *)
(** fmt/format.go fmtInteger: %d, %x and, with the flag #, %#x of an unsigned number *)
Definition pr_d (n : N) : string := DecimalString.NilZero.string_of_uint (N.to_uint n).
Definition pr_x (n : N) : string := HexadecimalString.NilZero.string_of_uint (N.to_hex_uint n).
Definition pr_sx (n : N) : string := "0x" ++ pr_x n.
(** %#0wx: the digits are filled up to w, the leading 0x is not counted *)
Fixpoint zeros_s (k : nat) : string := match k with O => "" | S k => String "0" (zeros_s k) end.
Definition pr_0x (w : nat) (n : N) : string :=
  "0x" ++ (zeros_s (w - String.length (pr_x n)) ++ pr_x n).
(** fmt/format.go fmtSbx: %#x of a []byte, two digits each, nothing for an empty slice *)
Definition pr_x2 (x : N) : string := (if x <? 16 then "0" else "") ++ pr_x x.
Definition pr_sxb (b : bytes) : string :=
  match b with [] => "" | _ => "0x" ++ String.concat "" (map pr_x2 b) end.
(** fmt/print.go fmtBytes: %#v of a []byte *)
Definition pr_v (nil : bool) (b : bytes) : string :=
  match b, nil with
  | [], true => "[]byte(nil)"
  | _, _ => "[]byte{" ++ String.concat ", " (map pr_sx b) ++ "}"
  end.

(** ** IEs *)
Definition in_names (l : list (N * string)) (t : N) : string :=
  match find (fun p => fst p =? t) l with Some p => snd p | None => "Undefined" end.
(** gtpv2/ie/ie.go:305-310, gtpv1/ie/ie.go:333-338, gtpv0/ie/ie.go:189-194 Name *)
Definition ie_name2 (t : N) : string := in_names ie_names2 t.
Definition ie_name1 (t : N) : string := in_names ie_names1 t.
Definition ie_name0 (t : N) : string := in_names ie_names0 t.

(** gtpv2/ie/ie.go:313-324 String, of an IE that is not nil *)
Definition ie_string2 (z : bool) (i : ie2) : string :=
  "{" ++ ie_name2 (i2_type i) ++ ": {Type: " ++ pr_d (i2_type i) ++ ", Length: " ++ pr_d (i2_length i) ++
  ", Instance: " ++ pr_sx (i2_instance i) ++ ", Payload: " ++ pr_v z (i2_payload i) ++ "}}".
(** gtpv1/ie/ie.go:341-351, gtpv0/ie/ie.go:197-207 String *)
Definition ie_string1 (nm : N -> string) (z : bool) (i : ie1) : string :=
  "{" ++ nm (i1_type i) ++ ": {Type: " ++ pr_d (i1_type i) ++ ", Length: " ++ pr_d (i1_length i) ++
  ", Payload: " ++ pr_v z (i1_payload i) ++ "}}".
(** the nil case of the three String methods *)
Definition or_nil {I} (f : bool -> I -> string) (z : bool) (o : option I) : string :=
  match o with None => "nil" | Some i => f z i end.

(** ** Headers *)
(** gtpv2/message/header.go:156-166 String *)
Definition hdr_string2 (z : bool) (h : hdr2) : string :=
  "{Flags: " ++ pr_sx (h2_flags h) ++ ", Type: " ++ pr_d (h2_type h) ++ ", Length: " ++ pr_d (h2_length h) ++
  ", TEID: " ++ pr_sx (h2_teid h) ++ ", SequenceNumber: " ++ pr_sx (h2_seq h) ++ ", Spare: " ++ pr_d (h2_spare h) ++
  ", Payload: " ++ pr_v z (h2_payload h) ++ "}".
(** gtpv1/message/extension-header.go:142-149 String *)
Definition ext_string (e : ext1) : string :=
  "{Type: " ++ pr_sx (eh_type e) ++ ", Length: " ++ pr_d (eh_length e) ++ ", Content: " ++ pr_sxb (eh_content e) ++
  ", NextType: " ++ pr_x (eh_next e) ++ "}".
(** gtpv1/message/header.go:276-291 String; %v of the extension headers, fmt/print.go printValue *)
Definition hdr_string1 (z : bool) (h : hdr1) : string :=
  "{Flags: " ++ pr_sx (h1_flags h) ++ ", Type: " ++ pr_sx (h1_type h) ++ ", Length: " ++ pr_d (h1_length h) ++
  ", TEID: " ++ pr_0x 8 (h1_teid h) ++ ", SequenceNumber: " ++ pr_0x 4 (h1_seq h) ++ ", NPDUNumber: " ++ pr_sx (h1_npdu h) ++
  ", ExtensionHeaderType: " ++ pr_sx (h1_next h) ++
  ", ExtensionHeaders: [" ++ String.concat " " (map ext_string (h1_exts h)) ++ "]" ++
  ", Payload: " ++ pr_v z (h1_payload h) ++ "}".
(** gtpv0/message/header.go:118-129 String *)
Definition hdr_string0 (z : bool) (h : hdr0) : string :=
  "{Flags: " ++ pr_sx (h0_flags h) ++ ", Type: " ++ pr_sx (h0_type h) ++ ", Length: " ++ pr_d (h0_length h) ++
  ", SequenceNumber: " ++ pr_0x 4 (h0_seq h) ++ ", FlowLabel: " ++ pr_0x 4 (h0_label h) ++
  ", SndcpNumber: " ++ pr_0x 2 (h0_sndcp h) ++ ", TID: " ++ pr_0x 16 (h0_tid h) ++ ", Payload: " ++ pr_v z (h0_payload h) ++ "}".

(** ** Messages *)
(** strings.TrimSuffix(s, "}") *)
Fixpoint trim_brace (s : string) : string :=
  match s with
  | EmptyString => EmptyString
  | String c EmptyString => if (c =? "}")%char then EmptyString else s
  | String c r => String c (trim_brace r)
  end.

(** fmt.Sprint of the elements of a list of IEs; [z k] is for element k *)
Fixpoint list_strings {I} (f : bool -> I -> string) (z : nat -> bool) (l : list (option I)) : list string :=
  match l with [] => [] | o :: r => or_nil f (z O) o :: list_strings f (fun k => z (S k)) r end.
(** gtpv{0,1}/message/message.go prettifyIE, gtpv0:264-266, gtpv1:268-270 *)
Definition pretty_ie1 (nm : N -> string) (f : string) (z : nat -> bool) (o : option ie1) : string :=
  "{" ++ f ++ ": " ++ or_nil (ie_string1 nm) (z O) o ++ "}".
(** gtpv2/message/message.go:466-480 prettifyIE; [z] is for the members or, at 0, for the IE *)
Definition pretty_ie2 (g : N -> bool) (f : string) (z : nat -> bool) (o : option ie2) : string :=
  match o with
  | None => "{" ++ f ++ ": nil}"
  | Some i =>
      if g (i2_type i) then
        "{" ++ f ++ ": [" ++ String.concat ", " (list_strings ie_string2 z (map Some (i2_children i))) ++ "]}"
      else "{" ++ f ++ ": " ++ ie_string2 (z O) i ++ "}"
  end.
(** gtpv{0,1,2}/message/message.go prettifyFields (gtpv0:236-262, gtpv1:240-266, gtpv2:438-464);
    [z k] is for field k *)
Section Fields.
Context {I : Type} (one : string -> (nat -> bool) -> option I -> string) (str : bool -> I -> string).
Definition pretty_field (f : string) (k : fkind) (z : nat -> bool) (l : list (option I)) : string :=
  match k with
  | FSingle => one f z (hd None l)
  | FList => "{" ++ f ++ ": [" ++ String.concat ", " (list_strings str z l) ++ "]}"
  end.
Fixpoint pretty_fields (fs : list (string * fkind)) (z : nat -> nat -> bool) (m : list (string * list (option I))) : list string :=
  match fs with
  | [] => []
  | (f, k) :: r => pretty_field f k (z O) (fget m f) :: pretty_fields r (fun n => z (S n)) m
  end.
End Fields.
(** gtpv{0,1,2}/message/message.go Prettify (gtpv0:217-229, gtpv1:221-233, gtpv2:419-431) of a
    message with the name, the printed header and the printed fields given *)
Definition pretty (name header : string) (fields : list string) : string :=
  "{" ++ name ++ ": " ++ trim_brace header ++ ", IEs: [" ++ String.concat ", " fields ++ "]}".

Definition prettify2 (g : N -> bool) (zh : bool) (z : nat -> nat -> bool) (d : mdesc) (m : msg2) : string :=
  pretty (name_of names2 (md_name d) (h2_type (m_hdr m))) (hdr_string2 zh (m_hdr m))
    (pretty_fields (pretty_ie2 g) ie_string2 (md_fields d) z (m_fs m)).
Definition prettify1 (zh : bool) (z : nat -> nat -> bool) (p : pdu1) : string :=
  match p with
  | P1 d m => pretty (name_of names1 (md_name d) (h1_type (m_hdr m))) (hdr_string1 zh (m_hdr m))
                (pretty_fields (pretty_ie1 ie_name1) (ie_string1 ie_name1) (md_fields d) z (m_fs m))
  | P1_tpdu h => pretty (name_of names1 "TPDU" (h1_type h)) (hdr_string1 zh h) []
  end.
Definition prettify0 (zh : bool) (z : nat -> nat -> bool) (p : pdu0) : string :=
  match p with
  | P0 d m => pretty (name_of names0 (md_name d) (h0_type (m_hdr m))) (hdr_string0 zh (m_hdr m))
                (pretty_fields (pretty_ie1 ie_name0) (ie_string1 ie_name0) (md_fields d) z (m_fs m))
  | P0_tpdu h => pretty (name_of names0 "TPDU" (h0_type h)) (hdr_string0 zh h) []
  end.
