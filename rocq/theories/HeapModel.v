(* The builder methods on memory: pointers, maps and slices are references to
   objects that values may share, as in Go.  The statements of the methods are
   those of BuildModel.v and BuildTables.v (openapi3/entities.go and
   openapi31/entities.go). *)
From Verif Require Import Str SMap Json CodecModel BuildModel.

(* A place: an object, and the way into it by positions of fields (or elements of
   an array).  [l, []] is the whole object. *)
Definition loc := nat.
Definition addr := (loc * list nat)%type.

Inductive hval :=
| HNil                                  (* nil pointer, slice, map *)
| HStr (s : string) | HNum (q : Q) | HBool (b : bool)
| HAny (j : json)                       (* what an interface{} holds: taken as constant *)
| HPtr (a : addr)
| HArr (l : loc)                        (* a slice: the whole of an array *)
| HMap (l : loc)
| HStruct (ws : list hval).

Inductive obj :=
| OVal (w : hval)                       (* a variable; an array is a struct of its elements *)
| OMap (m : list (string * hval)).
Definition heap := list obj.

Fixpoint sub (w : hval) (p : list nat) : option hval :=
  match p with
  | [] => Some w
  | i :: p => match w with HStruct ws => match nth_error ws i with Some w => sub w p | None => None end | _ => None end
  end.
Fixpoint upd (w : hval) (p : list nat) (x : hval) : option hval :=
  match p with
  | [] => Some x
  | i :: p =>
      match w with
      | HStruct ws =>
          match nth_error ws i with
          | Some w => match upd w p x with Some w => Some (HStruct (set_nth i w ws)) | None => None end
          | None => None
          end
      | _ => None
      end
  end.

Definition read (h : heap) (a : addr) : option hval :=
  match nth_error h (fst a) with Some (OVal w) => sub w (snd a) | _ => None end.
Definition write (h : heap) (a : addr) (x : hval) : option heap :=
  match nth_error h (fst a) with
  | Some (OVal w) => match upd w (snd a) x with Some w => Some (set_nth (fst a) (OVal w) h) | None => None end
  | _ => None
  end.

(* A zero value has no references. *)
Fixpoint flat (v : val) : hval :=
  match v with
  | VStr s => HStr s
  | VNum q => HNum q
  | VBool b => HBool b
  | VAny j => HAny j
  | VStruct vs => HStruct (map flat vs)
  | _ => HNil
  end.

(* What is chained: selecting a struct held by value, a struct behind a pointer,
   an element of a slice of structs; a method. *)
Inductive move (A : Type) :=
| Sel (f : string) | Deref (f : string) | Elem (f : string) (k : nat)
| With (f : string) (x : A) | Item (f key : string) (x : A) | Ens (f : string).
Arguments Sel {A}. Arguments Deref {A}. Arguments Elem {A}. Arguments With {A}. Arguments Item {A}. Arguments Ens {A}.

Section Run.
  Variable T : list (string * ent).
  Variable M : list (string * list (string * meth)).

  Section Call.
  Variable fs : list field.
  Variable key : string.
  Variable x : hval.

  (* The place of a field of the receiver. *)
  Definition place (a : addr) (f : string) : option addr :=
    match position f fs with Some i => Some (fst a, snd a ++ [i]) | None => None end.

  (* Right-hand sides.  [val] as in WithInfo (openapi3/entities.go:38-41), [&val]
     as in Info.WithDescription (224-227): the parameter is a variable of its own;
     [make(map...)] as in WithMapOfAnythingItem (104-112), [new(T)] as in
     ComponentsEns (89-95).  The same in openapi31/entities.go:40, 256, 138, 96. *)
  Definition heval (e : exp) (h : heap) : heap * hval :=
    match e with
    | EVal => (h, x)
    | EAddr => (h ++ [OVal x], HPtr (length h, []))
    | EMake _ => (h ++ [OMap []], HMap (length h))
    | ENew n => (h ++ [OVal (flat (zero T LVL (TNamed n)))], HPtr (length h, []))
    end.

  (* s.f = e, for a receiver that is a pointer to [a]: openapi3/entities.go:39,
     openapi31/entities.go:41. *)
  Definition hassign (a : addr) (f : string) (e : exp) (h : heap) : option heap :=
    match place a f with
    | Some b => let (h, w) := heval e h in write h b w
    | None => None
    end.

  (* Statements: assignment; if s.f == nil { s.g = e } (openapi3/entities.go:90-92,
     105-107); s.f[key] = val (openapi3/entities.go:109), which panics for a nil map. *)
  Definition hexec (a : addr) (s : stmt) (h : heap) : option heap :=
    match s with
    | SAssign f e => hassign a f e h
    | SIfNil f g e =>
        match place a f with
        | Some b => match read h b with
                    | Some HNil => hassign a g e h
                    | Some _ => Some h
                    | None => None
                    end
        | None => None
        end
    | SItem f =>
        match place a f with
        | Some b => match read h b with
                    | Some (HMap l) => match nth_error h l with
                                       | Some (OMap m) => Some (set_nth l (OMap (put key x m)) h)
                                       | _ => None
                                       end
                    | _ => None
                    end
        | None => None
        end
    end.

  Fixpoint hexec_all (a : addr) (l : list stmt) (h : heap) : option heap :=
    match l with
    | [] => Some h
    | s :: l => match hexec a s h with Some h => hexec_all a l h | None => None end
    end.

  (* A call with the receiver at [a]: memory after it, and where the result points to. *)
  Definition hcall (b : meth) (a : addr) (h : heap) : option (heap * addr) :=
    match hexec_all a (m_body b) h with
    | None => None
    | Some h =>
        match m_ret b with
        | RSelf => Some (h, a)
        | RField f => match place a f with
                      | Some b => match read h b with Some (HPtr r) => Some (h, r) | _ => None end
                      | None => None
                      end
        end
    end.
  End Call.

  Definition type_of (fs : list field) (f : string) : option ty :=
    match position f fs with Some i => match nth_error fs i with Some f => Some (f_ty f) | None => None end | None => None end.

  (* One link of a chain, Go expressions like x.Info.WithTitle(t), x.ContactEns(),
     x.Servers[0] (methods: openapi3/entities.go:218-247): the type of what it gives, memory, the place. *)
  Definition hmove (n : string) (m : move hval) (a : addr) (h : heap) : option (string * (heap * addr)) :=
    match get n T with
    | Some (EStruct fs _ _) =>
        let select f :=
          match place fs a f with
          | Some b => read h b
          | None => None
          end in
        let named (r : option (heap * addr)) (f : option ty) :=
          match r, f with Some r, Some (TNamed s) => Some (s, r) | _, _ => None end in
        match m with
        | Sel f => named (match place fs a f with Some b => Some (h, b) | None => None end) (type_of fs f)
        | Deref f => named (match select f with Some (HPtr b) => Some (h, b) | _ => None end)
                           (match type_of fs f with Some (TPtr t) => Some t | _ => None end)
        | Elem f k => named (match select f with Some (HArr l) => match read h (l, [k]) with Some _ => Some (h, (l, [k])) | None => None end | _ => None end)
                            (match type_of fs f with Some (TArr t) => Some t | _ => None end)
        | With f x => match type_of fs f, method M n ("With" ^^ f) with
                      | Some _, Some b => named (hcall fs "" x b a h) (Some (TNamed n))
                      | _, _ => None
                      end
        | Item f key x => match type_of fs f, method M n ("With" ^^ f ^^ "Item") with
                          | Some _, Some b => named (hcall fs key x b a h) (Some (TNamed n))
                          | _, _ => None
                          end
        | Ens f => match method M n (f ^^ "Ens") with
                   | Some b => named (hcall fs "" HNil b a h) (match type_of fs f with Some (TPtr t) => Some t | _ => None end)
                   | None => None
                   end
        end
    | _ => None
    end.

  Fixpoint hchain (n : string) (l : list (move hval)) (a : addr) (h : heap) : option (heap * addr) :=
    match l with
    | [] => Some (h, a)
    | m :: l => match hmove n m a h with Some (n, (h, a)) => hchain n l a h | None => None end
    end.
End Run.
