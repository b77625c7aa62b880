(** Model of datas/internal/bincore_file.hpp, datas/binreader.hpp and datas/binwritter.hpp: file readers
    and writers as objects that are created, opened, moved and destroyed.  What a stream does once opened
    is in Stream_Model; here only which file a use of an object reaches. *)
From Verif Require Import Base.
Local Open Scope nat_scope.

Definition name := list Z.
Inductive kind := Reader | Writer.
(** One object: its FileStream (bincore_file.hpp:24: the file it has open, the fail bit) and its
    baseStream (binreader_stream.hpp:31, binwritter_stream.hpp:31), a pointer to the FileStream of an object
    ([None]: null) *)
Record obj := Obj { file : option name; failed : bool; base : option nat }.
(** All objects ever made, by number ([None]: destroyed), and the contents of the files ([None]: there is
    none of that name) *)
Record world := World { objs : list (option obj); files : name -> option (list Z) }.
Definition the (w : world) (i : nat) : option obj := match nth_error (objs w) i with Some o => o | None => None end.
Fixpoint put_at {A} (i : nat) (x : A) (l : list A) : list A :=
  match l, i with [], _ => [] | _ :: r, O => x :: r | y :: r, S j => y :: put_at j x r end.

Section Files.
  (** whether the system lets this process read, or create and write, a file of this name *)
  Context (k : kind) (allowed : name -> bool).

  (** What std::fstream::open does to the file system: binary|in wants the file there, binary|out makes it or
      empties it; None: it fails.  Two names are two files. *)
  Definition sys_open (fs : name -> option (list Z)) (n : name) : option (name -> option (list Z)) :=
    if allowed n then
      match k with
      | Reader => match fs n with Some _ => Some fs | None => None end
      | Writer => Some (fun m => if list_eq_dec Z.eq_dec m n then Some [] else fs m)
      end
    else None.
  Inductive result := Ok | Throws | NoObject.
  (** OpenFile, binreader.hpp:25-31, binwritter.hpp:25-31, with Open_, bincore_file.hpp:31-49.  fstream::open on a
      stream that has a file open fails and sets the fail bit; one that succeeds clears it. *)
  Definition OpenFile (i : nat) (n : name) (w : world) : result * world :=
    match the w i with
    | None => (NoObject, w)
    | Some o =>
        match file o with
        | Some _ => (Throws, World (put_at i (Some (Obj (file o) true (base o))) (objs w)) (files w))
        | None =>
            match sys_open (files w) n with
            | Some fs => (Ok, World (put_at i (Some (Obj (Some n) false (Some i))) (objs w)) fs)
            | None => (Throws, World (put_at i (Some (Obj None true (base o))) (objs w)) (files w))
            end
        end
    end.
  Inductive op := Create | CreateOpen (n : name) | Open (i : nat) (n : name) | MoveFrom (i : nat) | Destroy (i : nat).
  Definition destroy (i : nat) (w : world) : world := World (put_at i None (objs w)) (files w).
  Definition step (w : world) (o : op) : result * world :=
    match o with
    (* binreader.hpp:34, binwritter.hpp:34 *)
    | Create => (Ok, World (objs w ++ [Some (Obj None false None)]) (files w))
    (* binreader.hpp:35-38, binwritter.hpp:35-38; when the constructor throws there is no object *)
    | CreateOpen n =>
        let w1 := World (objs w ++ [Some (Obj None false None)]) (files w) in
        match OpenFile (length (objs w)) n w1 with
        | (Ok, w2) => (Ok, w2)
        | (r, w2) => (r, destroy (length (objs w)) w2)
        end
    (* binreader.hpp:43-44, binwritter.hpp:44-45 *)
    | Open i n => OpenFile i n w
    (* the defaulted move constructors, binreader.hpp:40, binwritter.hpp:41: baseStream is copied, the file goes from
       the old FileStream to the new one *)
    | MoveFrom i =>
        match the w i with
        | None => (NoObject, w)
        | Some o => (Ok, World (put_at i (Some (Obj None (failed o) (base o))) (objs w) ++ [Some (Obj (file o) (failed o) (base o))]) (files w))
        end
    | Destroy i => match the w i with None => (NoObject, w) | Some _ => (Ok, destroy i w) end
    end.
  Fixpoint run (w : world) (l : list op) : world := match l with [] => w | o :: r => run (snd (step w o)) r end.
End Files.

(** Where a read or write through object i goes: to a file; nowhere, the stream being failed or closed;
    through a null pointer; through a pointer to a destroyed stream *)
Inductive reach := To (n : name) | Nowhere | Null | Dangling | Gone.
Definition use (w : world) (i : nat) : reach :=
  match the w i with
  | None => Gone
  | Some o =>
      match base o with
      | None => Null
      | Some j => match the w j with
                  | None => Dangling
                  | Some b => if failed b then Nowhere else match file b with Some n => To n | None => Nowhere end
                  end
      end
  end.
(** IsValid, bincore_file.hpp:51 *)
Definition IsValid (w : world) (i : nat) : option bool := option_map (fun o => negb (failed o)) (the w i).
Definition empty_world (fs : name -> option (list Z)) : world := World [] fs.
