(** * World: several simulation objects in one process.

    All objects draw from the one generator of the module [random] (perc:1-22,
    [random.seed], [random.shuffle]; L1L2:88-97, 199-207 [random.randint]).  Nothing
    else is shared: the classes have no mutable class attributes and every
    object builds its own lattice and cluster pool (perc:23-24).  The generator is the
    stream of words it will produce and the number of words already taken.
    Simplification: a custom list is given to one object only; lists given to two
    objects are modelled in Shared.v. *)
From Coq Require Import ZArith List Bool.
From Verif Require Import Py Lattice Cluster Perc History.
Import ListNotations.
Open Scope Z_scope.

(** An object is kept without its position in the stream ([set_tick 0]): the
    position belongs to the generator. *)
Record world := mkWorld {
  w_objs : list perc;
  w_stream : nat -> Z;
  w_pos : nat
}.

Inductive event :=
| ENew (k : pkind) (L : Z) (seed : option (nat -> Z))
    (* a constructor; with [seed=] the stream that [random.seed] starts *)
| ECall (i : nat) (c : call)                    (* a call of object number [i] *)
| EOther (d : nat -> Z) (p : nat).              (* other code drew from or reseeded the generator *)

(** perc:15-28 [Percolation.__init__]: the generator is seeded first, then the object built;
    a constructor that raises leaves no object behind. *)
Definition wnew (ord : list Z -> list Z) (w : world) (k : pkind) (L : Z) (seed : option (nat -> Z)) : world :=
  let d := match seed with Some d => d | None => w_stream w end in
  let p := match seed with Some _ => O | None => w_pos w end in
  match new_perc (mkEnv ord d) k L p with
  | Ok s => mkWorld (w_objs w ++ [set_tick 0 s]) d (tick s)
  | Err _ => mkWorld (w_objs w) d p
  end.
(** A method call: the object as it is, the generator as it is. *)
Definition wcall (ord : list Z -> list Z) (w : world) (i : nat) (c : call) : world :=
  match nth_error (w_objs w) i with
  | Some o =>
      let s := exec (mkEnv ord (w_stream w)) (set_tick (w_pos w) o) c in
      mkWorld (upd (w_objs w) i (set_tick 0 s)) (w_stream w) (tick s)
  | None => w
  end.
(** What that call answers. *)
Definition wanswer (ord : list Z -> list Z) (w : world) (i : nat) (c : call) : option (res bool) :=
  match nth_error (w_objs w) i with
  | Some o => Some (outcome (mkEnv ord (w_stream w)) (set_tick (w_pos w) o) c)
  | None => None
  end.
Definition wstep (ord : list Z -> list Z) (w : world) (e : event) : world :=
  match e with
  | ENew k L seed => wnew ord w k L seed
  | ECall i c => wcall ord w i c
  | EOther d p => mkWorld (w_objs w) d p
  end.
Definition wrun (ord : list Z -> list Z) (w : world) (es : list event) : world := fold_left (wstep ord) es w.
