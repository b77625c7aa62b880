(** Model of FileInfo<char>::CatchBranch, datas/fileinfo.hpp:94-102. *)
From Verif Require Import Base FileInfo_Model StringView_Model.

(** What a call can do: return a path, throw (std::length_error), or index an
    empty vector / read outside a text. *)
Inductive branch := BPath (p : list Z) | BThrows | BUndefined.

(** fileinfo.hpp:94-102.  [exVec[0]] of an empty Explode() is undefined.  When the
    name is found at index 0, [found - 1] is SIZE_MAX and the std::string
    constructor throws.  [path] is a view without terminator, so
    [string_type(path)] copies all of it. *)
Definition CatchBranch (f : fileinfo) (path : list Z) : branch :=
  match Explode f with
  | Some (first :: _) =>
      match sv_find path first 0 with
      | None => BUndefined
      | Some found =>
          if found =? npos then BPath (path ++ GetFilenameExt f)
          else if found =? 0 then BThrows
          else BPath (firstn (Z.to_nat (found - 1)) path ++ GetFullPath f)
      end
  | _ => BUndefined
  end.
