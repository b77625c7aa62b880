(** Model of datas/directory_scanner.cpp (POSIX branch) and mkdirs of datas/stat.hpp. *)
From Verif Require Import Base FileInfo_Model.

Definition cQuote := 34.

(** What readdir delivers: the name and whether d_type is DT_DIR. *)
Record entry := mkEntry { d_name : list Z; is_dir : bool }.

(** opendir + the readdir sequence; [None]: opendir fails.  The file system does not change
    during a scan. *)
Definition fs := list Z -> option (list entry).

(** std::string::find(f) != npos: f is a substring. *)
Fixpoint starts_with (s f : list Z) : bool :=
  match f, s with
  | [], _ => true
  | x :: f', y :: s' => (x =? y) && starts_with s' f'
  | _ :: _, [] => false
  end.
Fixpoint contains (s f : list Z) : bool :=
  starts_with s f || match s with [] => false | _ :: s' => contains s' f end.

(** IsFilteredFile, directory_scanner.cpp:29-38. *)
Definition IsFilteredFile (filters : list (list Z)) (name : list Z) : bool :=
  match filters with [] => true | _ => existsb (contains name) filters end.

(** The directory prefix, directory_scanner.cpp:41-51. *)
Definition scan_prefix (dir : list Z) : list Z :=
  match dir with
  | [] => []
  | _ =>
    let lastWord := last dir 0 in
    let d := if lastWord =? cQuote then removelast dir else dir in
    if negb (lastWord =? cBack) && negb (lastWord =? cSlash) then d ++ [cSlash] else d
  end.

Definition is_dots (n : list Z) : bool :=
  match n with
  | [a] => a =? cDot
  | [a; b] => (a =? cDot) && (b =? cDot)
  | _ => false
  end.

(** Scan, directory_scanner.cpp:40-82.  [files] is the accumulated member; fuel bounds the
    recursion depth and [None] means it ran out. *)
Fixpoint Scan (fuel : nat) (opendir : fs) (filters : list (list Z)) (dir : list Z) (files : list (list Z))
  : option (list (list Z)) :=
  match fuel with
  | O => None
  | S f =>
    let d := scan_prefix dir in
    match opendir (d ++ [cDot]) with
    | None => Some files
    | Some es =>
      (fix loop (es : list entry) (files : list (list Z)) : option (list (list Z)) :=
         match es with
         | [] => Some files
         | e :: r =>
           if is_dots (d_name e) then loop r files
           else
             let subFile := d ++ d_name e in
             if is_dir e then
               match Scan f opendir filters subFile files with
               | None => None
               | Some files' => loop r files'
               end
             else if IsFilteredFile filters (d_name e) then loop r (files ++ [subFile])
             else loop r files
         end) es files
    end
  end.

(** std::string ordering (unsigned char comparison, a proper prefix is smaller). *)
Fixpoint str_ltb (a b : list Z) : bool :=
  match a, b with
  | _, [] => false
  | [], _ :: _ => true
  | x :: a', y :: b' => (x <? y) || ((x =? y) && str_ltb a' b')
  end.

(** std::set<std::string>::emplace. *)
Fixpoint set_insert (x : list Z) (l : list (list Z)) : list (list Z) :=
  match l with
  | [] => [x]
  | y :: r => if str_ltb x y then x :: l
              else if str_ltb y x then y :: set_insert x r
              else l
  end.

(** The prefixes before each '/', in order: the loops at stat.hpp:58-63 and :75-80. *)
Fixpoint prefixes (seen rest : list Z) : list (list Z) :=
  match rest with
  | [] => []
  | c :: r => if c =? cSlash then seen :: prefixes (seen ++ [c]) r else prefixes (seen ++ [c]) r
  end.

(** AFileInfo(path).GetFullPath() used only for its characters; for an empty path the
    view is empty. *)
Definition full_path (s : list Z) : list Z :=
  match Load s with Some f => GetFullPath f | None => [] end.

(** mkdirs(inFilepath, files, fc), stat.hpp:50-69: the arguments of the mkdir calls in order.
    [files] are the values of fc. *)
Definition mkdirs_many (inFilepath : list Z) (files : list (list Z)) : list (list Z) :=
  let tree := fold_left (fun t f => fold_left (fun t p => set_insert p t) (prefixes [] (full_path f)) t)
                        files [] in
  map (fun f => inFilepath ++ f) tree.

(** mkdirs(inFilepath), stat.hpp:71-81. *)
Definition mkdirs_one (inFilepath : list Z) : list (list Z) := prefixes [] (full_path inFilepath).
