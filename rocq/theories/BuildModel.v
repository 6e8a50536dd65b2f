(* The builder methods of the generated entity types: With<Field>, With<Field>Item
   and <Field>Ens of openapi3/entities.go and openapi31/entities.go.

   A method is described by its statements (the descriptions of all methods are in
   BuildTables.v, extracted from the Go text by tools/gen_build.py), and executed
   by an interpreter on the fields of the receiver.  The receiver is a struct as
   in CodecModel.v; values are not shared: a method that stores its argument
   stores a copy. *)
From Verif Require Import Str SMap Json CodecModel.

Inductive exp :=
| EVal                 (* val *)
| EAddr                (* &val *)
| EMake (t : ty)       (* make(map[string]T, 1) *)
| ENew (n : string).   (* new(T) *)

Inductive stmt :=
| SAssign (f : string) (e : exp)         (* r.F = e *)
| SIfNil (f g : string) (e : exp)        (* if r.F == nil { r.G = e } *)
| SItem (f : string).                    (* r.F[key] = val *)

Inductive ret := RSelf | RField (f : string).   (* return r, return r.F *)

(* The type of the parameter val (a variadic one is a slice), the statements,
   what is returned. *)
Record meth := mkMeth { m_val : option ty; m_body : list stmt; m_ret : ret }.

Section Run.
  Variable T : list (string * ent).
  Variable fs : list field.
  (* The arguments. *)
  Variable key : string.
  Variable x : val.

  Fixpoint position (name : string) (l : list field) : option nat :=
    match l with
    | [] => None
    | f :: l => if String.eqb (f_name f) name then Some O
                else match position name l with Some i => Some (S i) | None => None end
    end.

  Definition load (f : string) (vs : list val) : option val :=
    match position f fs with Some i => nth_error vs i | None => None end.
  Definition assign (f : string) (v : val) (vs : list val) : option (list val) :=
    match position f fs with Some i => Some (set_nth i v vs) | None => None end.

  Definition eval (e : exp) : val :=
    match e with
    | EVal => x
    | EAddr => VPtr x
    | EMake _ => VMap []
    | ENew n => VPtr (zero T LVL (TNamed n))
    end.

  (* None: not a Go program, or a panic (assignment to an entry of a nil map). *)
  Definition exec (s : stmt) (vs : list val) : option (list val) :=
    match s with
    | SAssign f e => assign f (eval e) vs
    | SIfNil f g e =>
        match load f vs with
        | Some VNil => assign g (eval e) vs
        | Some _ => Some vs
        | None => None
        end
    | SItem f =>
        match load f vs with
        | Some (VMap m) => assign f (VMap (put key x m)) vs
        | _ => None
        end
    end.

  Fixpoint exec_all (l : list stmt) (vs : list val) : option (list val) :=
    match l with
    | [] => Some vs
    | s :: l => match exec s vs with Some vs => exec_all l vs | None => None end
    end.

  (* The fields after the call, and what is returned unless it is the receiver. *)
  Definition call (b : meth) (vs : list val) : option (list val * option val) :=
    match exec_all (m_body b) vs with
    | None => None
    | Some vs =>
        match m_ret b with
        | RSelf => Some (vs, None)
        | RField f => match load f vs with Some v => Some (vs, Some v) | None => None end
        end
    end.
End Run.

(* The method of a type with a name. *)
Definition method (M : list (string * list (string * meth))) (n name : string) : option meth :=
  match get n M with Some l => get name l | None => None end.
