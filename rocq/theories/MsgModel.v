(** Interpreter for the message files of gtpv{0,1,2}/message.  All of them consist of
    the same seven functions (New, Marshal, MarshalTo, Parse/UnmarshalBinary,
    MarshalLen, SetLength) with per-message tables inside; tools/extract.py turns each
    file into an [mdesc] and this file gives the meaning of the statements.  The line
    references of each message are in the generated files Msgs{0,1,2}Gen.v; the ones
    below point to gtpv2/message/delete-bearer-req.go as an instance.  No proofs here. *)
From Coq Require Import String.
From Verif Require Import Base.
Open Scope string_scope.
Open Scope N_scope.
Open Scope list_scope.

(** X *ie.IE or X []*ie.IE *)
Inductive fkind := FSingle | FList.

(** What happens to one IE in the body of a [switch i.Type] case. *)
Inductive act :=
| ASet (f : string)                                   (* m.F = i *)
| AApp (f : string)                                   (* m.F = append(m.F, i) *)
| AInst (cases : list (N * act)) (dflt : act)         (* switch i.Instance() *)
| AIfNil (f : string) (yes no : act)                  (* if m.F == nil { yes } else { no } *)
| ANop.                                               (* nothing: the IE is dropped *)

(** [for _, i := range ies { if i == nil {continue}; switch i.Type {cases; default} }];
    [t_nilskip] says whether the nil test is there. *)
Record table := Tbl { t_nilskip : bool; t_cases : list (N * act); t_default : act }.

(** One statement of MarshalTo.  [adv]: is offset advanced afterwards?
    [skip]: are nil elements skipped? *)
Inductive mstep :=
| MSingle (f : string) (adv : bool)
| MList (f : string) (skip adv : bool).
(** One statement of MarshalLen. *)
Inductive lstep :=
| LSingle (f : string)
| LList (f : string) (skip : bool).

(** The NewHeader call of the constructor. *)
Inductive ctor :=
| Ctor (v p t mtype : N) (teid : bool)   (* v2: NewHeader(NewHeaderFlags(v,p,t), mtype, teid or 0, seq, nil) *)
| Ctor1 (flags mtype : N) (teid seq : bool)  (* v1: NewHeader(flags, mtype, teid or 0, seq or 0, nil) *)
| Ctor0 (flags mtype : N).               (* v0: NewHeader(flags, mtype, seq, label, tid, nil) *)

Record mdesc := MDesc {
  md_name : string;
  md_ctor : ctor;
  md_fields : list (string * fkind);
  md_new : table;
  md_unm : table;
  md_min : nat;         (* UnmarshalBinary returns early when the payload is shorter *)
  md_soft : bool;       (* UnmarshalBinary swallows ErrTooShortToParse of ParseMultiIEs *)
  md_check : bool;      (* MarshalTo tests len(b) < MarshalLen() *)
  md_reset : bool;      (* MarshalTo sets Header.Payload = nil first *)
  md_steps : list mstep;
  md_lens : list lstep;
  md_sub : N            (* SetLength: Length = uint16(MarshalLen() - md_sub) *)
}.

(** The operations of the ie package used by messages. *)
Record ieops (I : Type) := IeOps {
  io_type : I -> N; io_inst : I -> N; io_mlen : I -> nat;
  io_mto : I -> bytes -> res bytes; io_multi : bytes -> res (list I) }.
Arguments io_type {I}. Arguments io_inst {I}. Arguments io_mlen {I}.
Arguments io_mto {I}. Arguments io_multi {I}.

(** The operations of Header used by messages. *)
Record hdops (H : Type) := HdOps {
  ho_mlen : H -> nat; ho_payload : H -> bytes; ho_set_payload : H -> bytes -> H;
  ho_set_len : H -> N -> H;      (* h.Length = n *)
  ho_set_length : H -> H;        (* h.SetLength() *)
  ho_mto : H -> bytes -> res bytes; ho_parse : bytes -> res H }.
Arguments ho_mlen {H}. Arguments ho_payload {H}. Arguments ho_set_payload {H}.
Arguments ho_set_len {H}. Arguments ho_set_length {H}. Arguments ho_mto {H}. Arguments ho_parse {H}.

Section Msg.
Context {I H : Type} (io : ieops I) (ho : hdops H).

(** Field contents: a nil *IE is [], a non-nil one [Some i]; a list field is its
    elements, which the caller may have set to nil (None). *)
Definition fmap := list (string * list (option I)).

Fixpoint fget (m : fmap) (f : string) : list (option I) :=
  match m with
  | [] => []
  | (k, v) :: r => if String.eqb k f then v else fget r f
  end.
Fixpoint fset (m : fmap) (f : string) (v : list (option I)) : fmap :=
  match m with
  | [] => []
  | (k, w) :: r => if String.eqb k f then (k, v) :: r else (k, w) :: fset r f v
  end.
Definition fempty (d : mdesc) : fmap := map (fun p => (fst p, [])) (md_fields d).

Record msg := Msg { m_hdr : H; m_fs : fmap }.

Fixpoint assoc_act (l : list (N * act)) (d : act) (k : N) : act :=
  match l with
  | [] => d
  | (x, a) :: r => if x =? k then a else assoc_act r d k
  end.

(** the body of a case, e.g. delete-bearer-req.go:49-108 *)
Fixpoint run_act (a : act) (i : I) (m : fmap) : fmap :=
  match a with
  | ASet f => fset m f [Some i]
  | AApp f => fset m f (fget m f ++ [Some i])
  | AInst cs d =>
      (fix sel (l : list (N * act)) : fmap :=
         match l with
         | [] => run_act d i m
         | (x, a') :: r => if x =? io_inst io i then run_act a' i m else sel r
         end) cs
  | AIfNil f y n => match fget m f with [] => run_act y i m | _ => run_act n i m end
  | ANop => m
  end.

(** the loop over the IEs, e.g. delete-bearer-req.go:44-109 *)
Fixpoint run_table (t : table) (ies : list (option I)) (m : fmap) : res fmap :=
  match ies with
  | [] => Ok m
  | None :: r => if t_nilskip t then run_table t r m else Panic
  | Some i :: r =>
      run_table t r (run_act (assoc_act (t_cases t) (t_default t) (io_type io i)) i m)
  end.

(** MarshalLen, e.g. delete-bearer-req.go:349-414; IE.MarshalLen on nil panics *)
Fixpoint len_list (skip : bool) (l : list (option I)) : res nat :=
  match l with
  | [] => Ok O
  | None :: r => if skip then len_list skip r else Panic
  | Some i :: r => do n <- len_list skip r; Ok (io_mlen io i + n)%nat
  end.
Definition len_step (s : lstep) (m : fmap) : res nat :=
  match s with
  | LSingle f => match fget m f with Some i :: _ => Ok (io_mlen io i) | _ => Ok O end
  | LList f skip => len_list skip (fget m f)
  end.
Fixpoint len_steps (ss : list lstep) (m : fmap) : res nat :=
  match ss with
  | [] => Ok O
  | s :: r => do a <- len_step s m; do b <- len_steps r m; Ok (a + b)%nat
  end.
Definition msg_mlen (d : mdesc) (m : msg) : res nat :=
  do n <- len_steps (md_lens d) (m_fs m);
  Ok (ho_mlen ho (m_hdr m) - len (ho_payload ho (m_hdr m)) + n)%nat.

(** SetLength, e.g. delete-bearer-req.go:417-419 *)
Definition msg_set_length (d : mdesc) (m : msg) : res msg :=
  do n <- msg_mlen d m;
  Ok (Msg (ho_set_len ho (m_hdr m) (u16 (N.of_nat n - md_sub d))) (m_fs m)).

(** New*, e.g. delete-bearer-req.go:36-112; [h] is the result of NewHeader *)
Definition msg_new (d : mdesc) (h : H) (ies : list (option I)) : res msg :=
  do fs <- run_table (md_new d) ies (fempty d);
  msg_set_length d (Msg h fs).

(** the field statements of MarshalTo, e.g. delete-bearer-req.go:130-249: each writes
    into Payload[offset:] *)
Definition mto_one (i : I) (adv : bool) (off : nat) (p : bytes) : res (bytes * nat) :=
  do p' <- on_slice_from p off (io_mto io i);
  Ok (p', if adv then (off + io_mlen io i)%nat else off).
Fixpoint mto_list (skip adv : bool) (l : list (option I)) (off : nat) (p : bytes) : res (bytes * nat) :=
  match l with
  | [] => Ok (p, off)
  | None :: r => if skip then mto_list skip adv r off p else Panic
  | Some i :: r => do x <- mto_one i adv off p; let '(p', off') := x in mto_list skip adv r off' p'
  end.
Definition mto_step (s : mstep) (m : fmap) (off : nat) (p : bytes) : res (bytes * nat) :=
  match s with
  | MSingle f adv =>
      match fget m f with Some i :: _ => mto_one i adv off p | _ => Ok (p, off) end
  | MList f skip adv => mto_list skip adv (fget m f) off p
  end.
Fixpoint mto_steps (ss : list mstep) (m : fmap) (off : nat) (p : bytes) : res (bytes * nat) :=
  match ss with
  | [] => Ok (p, off)
  | s :: r => do x <- mto_step s m off p; let '(p', off') := x in mto_steps r m off' p'
  end.

(** MarshalTo, e.g. delete-bearer-req.go:124-253.  The receiver is mutated (Payload and
    Length), so the updated message is returned with the buffer. *)
Definition msg_mto (d : mdesc) (m : msg) (b : bytes) : res (bytes * msg) :=
  do n0 <- msg_mlen d m;
  if md_check d && (len b <? n0)%nat then Err ETooShortToMarshal else
  let h1 := if md_reset d then ho_set_payload ho (m_hdr m) [] else m_hdr m in
  do n <- msg_mlen d (Msg h1 (m_fs m));
  do p <- go_make (Z.of_nat n - Z.of_nat (ho_mlen ho h1));
  do x <- mto_steps (md_steps d) (m_fs m) 0 p;
  let h2 := ho_set_length ho (ho_set_payload ho h1 (fst x)) in
  do b' <- ho_mto ho h2 b;
  Ok (b', Msg h2 (m_fs m)).

(** Marshal, e.g. delete-bearer-req.go:115-121 *)
Definition msg_marshal (d : mdesc) (m : msg) : res (bytes * msg) :=
  do n <- msg_mlen d m; msg_mto d m (zeros n).

(** Parse* / UnmarshalBinary, e.g. delete-bearer-req.go:256-346 *)
Definition msg_parse (d : mdesc) (b : bytes) : res msg :=
  do h <- ho_parse ho b;
  if (len (ho_payload ho h) <? md_min d)%nat then Ok (Msg h (fempty d)) else
  match io_multi io (ho_payload ho h) with
  | Ok ies => do fs <- run_table (md_unm d) (map Some ies) (fempty d); Ok (Msg h fs)
  | Err ETooShortToParse => if md_soft d then Ok (Msg h (fempty d)) else Err ETooShortToParse
  | Err e => Err e
  | Panic => Panic
  end.
End Msg.
Arguments Msg {I H}. Arguments m_hdr {I H}. Arguments m_fs {I H}.
