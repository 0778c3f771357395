(** A checker for the commands of [RaceModel]: which accesses a function makes, with which
    mutexes held through the same variable, and whether the object is still its own. *)
From Coq Require Import String Lia Bool.
From Verif Require Import Base RaceModel.
Open Scope N_scope.
Open Scope list_scope.

(** what a goroutine knows of the object a variable names: nobody else has it; it made the
    object; it may use it *)
Inductive cls := Priv | Made | Valid.
Definition cle (a b : cls) : bool := match a, b with Priv, _ | Made, Made | Made, Valid | Valid, Valid => true | _, _ => false end.
Definition cmax (a b : cls) : cls := if cle a b then b else a.
Definition share (c : cls) : cls := match c with Priv => Made | _ => c end.

Definition lk := (lockk * N * bool)%type.
Record abs := Abs { ah : list lk; av : list (N * cls) }.
Fixpoint look (v : list (N * cls)) (x : N) : option cls :=
  match v with [] => None | (y, c) :: r => if y =? x then Some c else look r x end.
Fixpoint drop (v : list (N * cls)) (x : N) : list (N * cls) :=
  match v with [] => [] | (y, c) :: r => if y =? x then drop r x else (y, c) :: drop r x end.
Definition put (v : list (N * cls)) (x : N) (c : cls) := (x, c) :: drop v x.

(** an access: field, write?, mutexes of the same object, class; or taking a mutex: does it
    come after all those held? *)
Inductive row := Acc (f : field) (w : bool) (ls : list (lockk * bool)) (c : cls) | Acq (ok : bool).

Definition rank (l : lockk) : N := match l with MU | MC | MS | MR => 0 | MPkt => 1 | MLog1 | MLog2 => 2 | MG => 3 end.
Definition lks (h : list lk) (x : N) : list (lockk * bool) :=
  map (fun e => (fst (fst e), snd e)) (filter (fun e => snd (fst e) =? x) h).
Definition unheld (h : list lk) (x : N) : bool := forallb (fun e => negb (snd (fst e) =? x)) h.
Definition above (h : list lk) (l : lockk) : bool := forallb (fun e => rank (fst (fst e)) <? rank l) h.
Fixpoint unlk (l : lockk) (x : N) (w : bool) (h : list lk) : option (list lk) :=
  match h with
  | [] => None
  | (l', x', w') :: r => if lockk_beq l' l && (x' =? x) && Bool.eqb w' w then Some r
                         else match unlk l x w r with Some r' => Some ((l', x', w') :: r') | None => None end
  end.
Definition lk_eqb (a b : lk) : bool := lockk_beq (fst (fst a)) (fst (fst b)) && (snd (fst a) =? snd (fst b)) && Bool.eqb (snd a) (snd b).
Fixpoint lks_eqb (a b : list lk) : bool :=
  match a, b with [], [] => true | x :: r, y :: q => lk_eqb x y && lks_eqb r q | _, _ => false end.
Definition leb_v (a b : list (N * cls)) : bool :=
  forallb (fun e => match look b (fst e) with None => true | Some c => match look a (fst e) with Some c' => cle c' c | None => false end end) b.
Definition leb (a b : abs) : bool := lks_eqb (ah a) (ah b) && leb_v (av a) (av b).
Definition join_v (a b : list (N * cls)) : list (N * cls) :=
  flat_map (fun e => match look a (fst e), look b (fst e) with Some c, Some c' => [(fst e, cmax c c')] | _, _ => [] end) a.
Definition join (a b : abs) : abs := Abs (ah a) (join_v (av a) (av b)).

Fixpoint shares (v : list (N * cls)) (xs : list N) : option (list (N * cls)) :=
  match xs with
  | [] => Some v
  | x :: r => match look v x with Some c => shares (put v x (share c)) r | None => None end
  end.

Definition access (a : abs) (f : field) (w : bool) (x : N) : option row :=
  match look (av a) x with Some c => Some (Acc f w (lks (ah a) x) c) | None => None end.

Fixpoint check (c : cmd) (a : abs) : option (abs * list row) :=
  let two c1 a1 c2 a2 :=
    match check c1 a1, check c2 a2 with
    | Some (b1, r1), Some (b2, r2) =>
        let b := join b1 b2 in if leb b1 b && leb b2 b then Some (b, r1 ++ r2) else None
    | _, _ => None
    end in
  match c with
  | Skip => Some (a, [])
  | Rd f x | Use f x => match access a f false x with Some r => Some (a, [r]) | None => None end
  | Wr f x _ => match access a f true x with Some r => Some (a, [r]) | None => None end
  | If f x c1 c2 =>
      match access a f false x, two c1 a c2 a with Some r, Some (b, rs) => Some (b, r :: rs) | _, _ => None end
  | Lock l x w => match look (av a) x with Some _ => Some (Abs ((l, x, w) :: ah a) (av a), [Acq (above (ah a) l)]) | None => None end
  | Unlock l x w => match unlk l x w (ah a) with Some h => Some (Abs h (av a), []) | None => None end
  | IfKnown k x c1 c2 => match look (av a) x with Some _ => None | None => two c1 (Abs (ah a) (put (av a) x Valid)) c2 a end
  | Publish k x => match look (av a) x with Some c => Some (Abs (ah a) (put (av a) x (share c)), []) | None => None end
  | Fresh x => if unheld (ah a) x then Some (Abs (ah a) (put (av a) x Priv), []) else None
  | Pick x => if unheld (ah a) x then Some (Abs (ah a) (drop (av a) x), []) else None
  | Seq c1 c2 =>
      match check c1 a with
      | Some (b, r1) => match check c2 b with Some (d, r2) => Some (d, r1 ++ r2) | None => None end
      | None => None
      end
  | Choice c1 c2 => two c1 a c2 a
  | Loop c1 =>
      match check c1 a with
      | Some (a1, _) =>
          let b := join a a1 in
          match check c1 b with
          | Some (b1, r) => if leb a b && leb b1 b then Some (b, r) else None
          | None => None
          end
      | None => None
      end
  | Go g => match shares (av a) (0 :: map snd (args g)) with Some v => Some (Abs (ah a) v, []) | None => None end
  end.
Definition first_abs (t : string) : abs := Abs [] ((0, Valid) :: map (fun e => (snd e, Valid)) (args t)).
Definition rows (t : string) : list row :=
  match check (body t) (first_abs t) with Some (_, r) => r | None => [] end.
Definition checks (t : string) : bool :=
  match check (body t) (first_abs t) with Some (a, _) => match ah a with [] => true | _ => false end | None => false end.

Definition excl (a b : list (lockk * bool)) : bool :=
  existsb (fun p => existsb (fun q => lockk_beq (fst p) (fst q) && (snd p || snd q)) b) a.
Definition clash (p q : row) : list field :=
  match p, q with
  | Acc f w ls c, Acc g v ms d =>
      if field_beq f g && (w || v) && negb (excl ls ms)
         && match c, d with Priv, _ | _, Priv | Made, Made => false | _, _ => true end then [f] else []
  | _, _ => []
  end.
Definition may_race (a b : string) : list field := flat_map (fun p => flat_map (clash p) (rows b)) (rows a).
Definition ordered (t : string) : bool := forallb (fun r => match r with Acq o => o | _ => true end) (rows t).
