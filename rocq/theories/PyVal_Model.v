(** Model of the values and objects the Python bindings hand out: uni/python/pymotion.inl,
    uni/python/pyskeleton.inl, uni/python/pyrts.hpp, datas/python/vectors.hpp, datas/python/matrix44.hpp,
    with as much of CPython 2.7 as they use.  long is 64 bits.
    Simplifications: a list handed to get_values is not changed while its elements are converted;
    memory never runs out. *)
From Verif Require Import Base.

(** Python values built from numbers: what Py_BuildValue and PyFloat_FromDouble give *)
Inductive pyval (D : Type) := PFloat (x : D) | PTuple (l : list (pyval D)).
Arguments PFloat {D}. Arguments PTuple {D}.

Section Values.
  (** [F]: single, [D]: double; [wide], [narrow] the conversions, [zero], [one] single literals,
      [minus1] the -1.0 of a failed PyFloat_AsDouble *)
  Variables (F D : Type) (wide : F -> D) (narrow : D -> F) (zero one : F) (minus1 : D).

  (** A buffer for a value: its floats in the order of memory.  Reading a member: [nth]. *)
  Definition buffer := list F.
  Definition member (n : nat) (b : buffer) : pyval D := PFloat (wide (nth n b zero)).
  (** vectors.hpp:30-32, format (ffff) *)
  Definition BuildVector4 (b : buffer) : pyval D := PTuple [member 0 b; member 1 b; member 2 b; member 3 b].
  (** pyrts.hpp:22-30: translation, rotation, scale are the buffer's four floats each (uni/rts.hpp:23-25) *)
  Definition BuildRTS (b : buffer) : pyval D :=
    PTuple [PTuple [member 0 b; member 1 b; member 2 b; member 3 b];
            PTuple [member 4 b; member 5 b; member 6 b; member 7 b];
            PTuple [member 8 b; member 9 b; member 10 b; member 11 b]].
  (** matrix44.hpp:21-28: r1 .. r4 *)
  Definition BuildMatrix (b : buffer) : pyval D :=
    PTuple [PTuple [member 0 b; member 1 b; member 2 b; member 3 b];
            PTuple [member 4 b; member 5 b; member 6 b; member 7 b];
            PTuple [member 8 b; member 9 b; member 10 b; member 11 b];
            PTuple [member 12 b; member 13 b; member 14 b; member 15 b]].

  (** The buffers as declared: Vector4A16 (zeroes), RTSValue (uni/rts.hpp:27-28),
      esMatrix44 (datas/matrix44.cpp:54), and an uninitialised float *)
  Definition fresh_vector : buffer := [zero; zero; zero; zero].
  Definition fresh_rts : buffer := [zero; zero; zero; zero; zero; zero; zero; one; one; one; one; zero].
  Definition fresh_matrix : buffer :=
    [one; zero; zero; zero; zero; one; zero; zero; zero; zero; one; zero; zero; zero; zero; one].

  (** An override of GetValue or GetTM: the members it assigns ([None]: left alone).
      Simplification: what it assigns does not depend on what the buffer held. *)
  Definition assigned := list (option F).
  Fixpoint store (w : assigned) (b : buffer) : buffer :=
    match b with
    | [] => []
    | x :: b' => match w with [] => b | o :: w' => (match o with Some y => y | None => x end) :: store w' b' end
    end.

  (** A track, uni/motion.hpp:29-46: its type and the overrides; [None]: not overridden, the call throws
      (uni/internal/motion.inl:21-39). *)
  Record track := Track {
    TrackType : Z; BoneIndex : Z;
    value_rts : option (F -> assigned); value_matrix : option (F -> assigned);
    value_vector : option (F -> assigned); value_float : option (F -> assigned) }.

  (** What a call gives to the interpreter.  [TypeError]: null with the error set; [Result items pending]: a new list,
      [pending]: with an error left behind; [Borrowed]: None, its count not raised; [Terminates]: a C++ exception. *)
  Inductive answer := TypeError | Result (items : list (pyval D)) (pending : bool) | Borrowed (pending : bool) | Terminates.

  (** PyFloat_AsDouble of an element: a number, or -1.0 and an error *)
  Inductive elem := Number (d : D) | NotNumber.
  Definition AsDouble (e : elem) : D * bool := match e with Number d => (d, false) | NotNumber => (minus1, true) end.
  (** the times, pymotion.inl:171-176 *)
  Definition times (l : list elem) : list F * bool :=
    (map (fun e => narrow (fst (AsDouble e))) l, existsb (fun e => snd (AsDouble e)) l).
  (** the loops, pymotion.inl:185-190, 193-199, 202-207, 210-215: one buffer for all *)
  Fixpoint sample (get : F -> assigned) (build : buffer -> pyval D) (b : buffer) (ts : list F) : list (pyval D) :=
    match ts with
    | [] => []
    | t :: r => let b' := store (get t) b in build b' :: sample get build b' r
    end.
  Definition sampled (get : option (F -> assigned)) (build : buffer -> pyval D) (b : buffer) (ts : list F) (pending : bool) : answer :=
    match get, ts with
    | _, [] => Result [] pending
    | Some g, _ => Result (sample g build b ts) pending
    | None, _ => Terminates
    end.
  (** an argument *)
  Inductive arg := AList (l : list elem) | AOther.
  (** MotionTrack::GetValues, pymotion.inl:164-222; [garbage]: what the uninitialised float holds.
      Identifiers of the types: uni/motion.hpp:32-39 *)
  Definition GetValues (garbage : F) (self : track) (index : list arg) : answer :=
    match index with
    | [AList l] =>
      let (ts, pending) := times l in
      match TrackType self with
      | 0 | 1 | 2 => sampled (value_vector self) BuildVector4 fresh_vector ts pending
      | 5 => sampled (value_float self) (member 0) [garbage] ts pending
      | 4 => sampled (value_rts self) BuildRTS fresh_rts ts pending
      | 3 => sampled (value_matrix self) BuildMatrix fresh_matrix ts pending
      | _ => Borrowed pending
      end
    | _ => TypeError
    end.

  (** Bone::GetTM, pyskeleton.inl:123-138 *)
  Record bone := Bone { TMType : Z; tm_rts : option assigned; tm_matrix : option assigned }.
  Inductive tm_answer := Transform (v : pyval D) | TmBorrowed | TmTerminates.
  Definition GetTM (self : bone) : tm_answer :=
    match TMType self with
    | 1 => match tm_matrix self with Some w => Transform (BuildMatrix (store w fresh_matrix)) | None => TmTerminates end
    | 0 => match tm_rts self with Some w => Transform (BuildRTS (store w fresh_rts)) | None => TmTerminates end
    | _ => TmBorrowed
    end.
End Values.

(** The value assigned to framerate: an integer, something that converts to none, or del motion.framerate,
    where the setter gets a null pointer *)
Inductive assigned_value := Integer (n : Z) | NoInteger | Deleted.
(** PyLong_AsLong: outside a long, and for anything else, -1 and an error *)
Definition AsLong (v : assigned_value) : Z * bool :=
  match v with
  | Integer n => if (- 2 ^ 63 <=? n) && (n <? 2 ^ 63) then (n, false) else (-1, true)
  | NoInteger | Deleted => (-1, true)
  end.
(** Motion::SetFrameRate, pymotion.inl:306-309, on a motion that stores the rate ([true]) or not (motion.inl:41);
    the argument of FrameRate is uint32.  (rate afterwards, returned 0, error left behind) *)
Inductive set_answer := Set_ (rate : Z) (pending : bool) | SetTerminates.
Definition SetFrameRate (modifiable : bool) (v : assigned_value) : set_answer :=
  let (n, pending) := AsLong v in if modifiable then Set_ (wrap 32 n) pending else SetTerminates.
(** Motion::FrameRate, pymotion.inl:302-304 *)
Definition GetFrameRate (rate : Z) : Z := rate.

(** Objects.  Every Python object of the bindings holds an Element: a pointer with a flag that says whether
    it deletes (uni/common.hpp:22, datas/deleter_hybrid.hpp:24-34).  [home]: the object whose Element deletes what
    this one points into; [owns]: the flag; [count]: Python's references. *)
Record object := Obj { home : nat; owns : bool; count : Z }.
(** [released o]: what the Element of object o deletes has been deleted *)
Record world := World { objects : list object; released : list nat; blocks : nat }.

(** What a script does.  [Root]: a Create with an owning Element (pyskeleton.inl:232-237, pymotion.inl:311-316).
    [Child i own]: bones, tracks, indexing, iteration, parent on object i, giving a new object; its Element
    owns when the implementation of Bones(), Tracks() or At hands out one that does, else it points into
    what object i points into (pyskeleton.inl:149-159, 228-230, pymotion.inl:298-300, pylist.hpp:96-101,
    uni/list_vector.hpp:58).  [Hold i], [Drop i]: one reference more, one less.  [Use i]: any other method. *)
Inductive op := Root | Child (i : nat) (own : bool) | Hold (i : nat) | Drop (i : nat) | Use (i : nat).
(** [Ok]; [Dangling]: a method is called on something deleted; [NoObject]: no such object is held *)
Inductive outcome := Ok | Dangling | NoObject.

Fixpoint update {A} (n : nat) (f : A -> A) (l : list A) : list A :=
  match l with [] => [] | x :: r => match n with O => f x :: r | S m => x :: update m f r end end.
Definition member_of (n : nat) (l : list nat) : bool := existsb (Nat.eqb n) l.

(** Creating an object: PyType_GenericNew or PyType_GenericAlloc, one block of memory *)
Definition create (o : object) (w : world) : world := World (objects w ++ [o]) (released w) (S (blocks w)).
(** Py_DECREF; at zero tp_dealloc: pyskeleton.inl:117, 221, pymotion.inl:152-154, 283, pylist.hpp:87 - the Element is moved
    out and destroyed; tp_free is not called, so the block of the object itself stays *)
Definition drop (i : nat) (w : world) : world :=
  match nth_error (objects w) i with
  | None => w
  | Some o =>
    World (update i (fun o => Obj (home o) (owns o) (count o - 1)) (objects w))
          (if (count o - 1 =? 0) && owns o then home o :: released w else released w)
          (blocks w)
  end.
Definition held (o : object) : bool := 0 <? count o.
Definition status (i : nat) (w : world) : outcome :=
  match nth_error (objects w) i with
  | None => NoObject
  | Some o => if held o then if member_of (home o) (released w) then Dangling else Ok else NoObject
  end.
Definition step (p : op) (w : world) : outcome * world :=
  match p with
  | Root => (Ok, create (Obj (length (objects w)) true 1) w)
  | Child i own =>
    (status i w,
     match nth_error (objects w) i with
     | None => w
     | Some o => create (Obj (if own then length (objects w) else home o) own 1) w
     end)
  | Hold i => match nth_error (objects w) i with
              | Some o => (if held o then Ok else NoObject,
                           World (update i (fun o => Obj (home o) (owns o) (count o + 1)) (objects w)) (released w) (blocks w))
              | None => (NoObject, w)
              end
  | Drop i => (match nth_error (objects w) i with Some o => if held o then Ok else NoObject | None => NoObject end, drop i w)
  | Use i => (status i w, w)
  end.
Fixpoint play (ps : list op) (w : world) : list outcome * world :=
  match ps with
  | [] => ([], w)
  | p :: r => let (x, w1) := step p w in let (xs, w2) := play r w1 in (x :: xs, w2)
  end.
Definition start : world := World [] [] 0.
