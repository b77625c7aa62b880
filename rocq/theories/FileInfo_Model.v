(** Model of datas/fileinfo.hpp (FileInfo<char>).  Characters are [Z] codes.
    [None] = undefined behaviour / an ill-formed view. *)
From Verif Require Import Base.

Definition cSlash := 47. Definition cBack := 92. Definition cDot := 46.

(** std::string::find_last_of(char), [None] = npos. *)
Fixpoint find_last (c : Z) (l : list Z) : option nat :=
  match l with
  | [] => None
  | x :: r => match find_last c r with
              | Some i => Some (S i)
              | None => if x =? c then Some O else None
              end
  end.

(** the NUL-terminated string starting at a suffix of a std::string buffer
    (traits::length stops at the first NUL; the buffer itself is terminated) *)
Fixpoint c_string (l : list Z) : list Z :=
  match l with
  | [] => []
  | c :: r => if c =? 0 then [] else c :: c_string r
  end.

Record fileinfo := { fullPath : list Z; endFolder : nat; lastDot : nat }.

(** fileinfo.hpp:40-60, Load.  An empty input leaves the two indices as they
    were, i.e. uninitialised for a fresh object: [None]. *)
Definition Load (input : list Z) : option fileinfo :=
  match input with
  | [] => None
  | _ =>
      let full := map (fun c => if c =? cBack then cSlash else c) input in
      let ef := match find_last cSlash full with Some i => S i | None => O end in
      let ld := match find_last cDot full with
                | None => length full
                | Some O => length full
                | Some i => i
                end in
      Some {| fullPath := full; endFolder := ef; lastDot := ld |}
  end.

(** fileinfo.hpp:62-71 *)
Definition GetFullPathNoExt (f : fileinfo) : list Z := firstn (lastDot f) (fullPath f).
Definition GetFullPath (f : fileinfo) : list Z := fullPath f.
Definition GetFilenameExt (f : fileinfo) : list Z := c_string (skipn (endFolder f) (fullPath f)).
(** the size of the view is the pointer difference converted to size_t: a
    reversed range gives a view reaching far outside the string *)
Definition GetFilename (f : fileinfo) : option (list Z) :=
  if Nat.ltb (lastDot f) (endFolder f) then None
  else Some (firstn (lastDot f - endFolder f) (skipn (endFolder f) (fullPath f))).
Definition GetExtension (f : fileinfo) : list Z := c_string (skipn (lastDot f) (fullPath f)).
Definition GetFolder (f : fileinfo) : list Z := firstn (endFolder f) (fullPath f).

(** fileinfo.hpp:73-92, Explode.  [lastOffset] and [c] are offsets into the
    path; [fuel] counts the remaining iterations of the for loop. *)
Fixpoint explode_loop (path : list Z) (fuel c lastOffset : nat) (acc : list (list Z))
  : list (list Z) * nat :=
  match fuel with
  | O => (acc, lastOffset)
  | S k =>
      if nth c path 0 =? cSlash
      then explode_loop path k (S c) (S c) (acc ++ [firstn (c - lastOffset) (skipn lastOffset path)])
      else explode_loop path k (S c) lastOffset acc
  end.

Definition Explode (f : fileinfo) : option (list (list Z)) :=
  let path := fullPath f in
  match path with
  | [] => None (* std::prev(end()) of an empty string *)
  | p0 :: _ =>
      let lastOffset := if p0 =? cSlash then 1%nat else 0%nat in
      let '(res, lo) := explode_loop path (length path - 1) 1 lastOffset [] in
      Some (if Nat.eqb lo (length path) then res else res ++ [c_string (skipn lo path)])
  end.
