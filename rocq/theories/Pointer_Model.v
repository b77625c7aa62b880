(** Pointers stored in loaded files: datas/pointer.hpp.
    A slot is a pointer field at an address (a 64-bit number); [cells] gives the number stored in each
    slot and [used] the list usedPts of each thread (thread_local, line 24).
    Simplifications: slots do not overlap, so they are independent cells; pointer arithmetic that C++
    leaves undefined wraps at 64 bits, as on x86-64; ES_X64 is set, so that esPointerX86 is PointerX86. *)
From Verif Require Import Base.

(** the two slot types: Pointer_t of uint64 (esPointerX64) and PointerX86 (esPointerX86), lines 26-66, 68-123, 132-134 *)
Inductive kind := X64 | X86.
Record state := St { cells : Z -> Z; used : nat -> list Z }.
Definition set_cell (a v : Z) (s : state) : state :=
  St (fun b => if b =? a then v else cells s b) (used s).
Definition set_used (t : nat) (l : list Z) (s : state) : state :=
  St (cells s) (fun u => if Nat.eqb u t then l else used s u).

(** Fixed(): 47-50, 92-95 *)
Definition Fixed (t : nat) (a : Z) (s : state) : bool := existsb (fun i => i =? a) (used s t).

(** the conversion to a C pointer: 35, 42 (the stored word is the pointer); 75-79, 84-88 (relative to the slot, zero is null) *)
Definition get (k : kind) (a : Z) (s : state) : Z :=
  match k with
  | X64 => cells s a
  | X86 => if cells s a =? 0 then 0 else u64 (a + cells s a)
  end.

(** operator= from a C pointer: 38-41; 115-121, where the difference is cut to 32 bits and stored in an int32 *)
Definition assign (k : kind) (a dest : Z) (s : state) : state :=
  match k with
  | X64 => set_cell a dest s
  | X86 => set_cell a (sgn 32 (u32 (u64 (dest - a)))) s
  end.

(** Fixup(root, noCheck): 52-65; 97-113 *)
Definition Fixup (k : kind) (t : nat) (a root : Z) (noCheck : bool) (s : state) : state * bool :=
  if negb noCheck && Fixed t a s then (s, false)
  else
    let s1 := set_used t (used s t ++ [a]) s in
    if cells s1 a =? 0 then (s1, false)
    else
      match k with
      | X64 => (set_cell a (u64 (root + cells s1 a)) s1, true)
      | X86 => (assign X86 a (u64 (root + cells s1 a)) s1, true)
      end.

(** ClearESPointers() on a thread: 136 *)
Definition ClearESPointers (t : nat) (s : state) : state := set_used t [] s.

(** A program's history: calls by any threads in any order.  Load is the program reading a file block
    that puts [v] into the slot (no library code runs). *)
Inductive event :=
  | EvFix (t : nat) (a root : Z) (noCheck : bool)
  | EvAssign (a dest : Z)
  | EvClear (t : nat)
  | EvLoad (a v : Z).
Definition step (kd : Z -> kind) (e : event) (s : state) : state * list bool :=
  match e with
  | EvFix t a root nc => let (s', b) := Fixup (kd a) t a root nc s in (s', [b])
  | EvAssign a d => (assign (kd a) a d s, [])
  | EvClear t => (ClearESPointers t s, [])
  | EvLoad a v => (set_cell a v s, [])
  end.
Fixpoint run (kd : Z -> kind) (h : list event) (s : state) : state * list bool :=
  match h with
  | [] => (s, [])
  | e :: h' => let (s1, r1) := step kd e s in let (s2, r2) := run kd h' s1 in (s2, r1 ++ r2)
  end.
