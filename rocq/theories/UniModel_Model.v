(** Vertex unpacking, bone transforms and the calls a uni class leaves unimplemented:
    uni/model.hpp, uni/rts.hpp, uni/internal/{model,motion,skeleton}.inl, uni/internal/exception.hpp. *)
From Coq Require Import String.
From Verif Require Import Base Float_Model Simd_Model.

(** PrimitiveDescriptor::UnpackDataType_e: model.hpp 31-36; [Other] is any other value of the enum's type *)
Inductive unpack := None_ | Add | Mul | Madd | Other (n : Z).
(** BBOX: model.hpp 24-27 *)
Record bbox (K : scalar) := Box { min : vec K; max : vec K }.
Arguments Box {_}. Arguments min {_}. Arguments max {_}.
(** Resample: internal/model.inl 28-63, on the descriptor's UnpackDataType() and UnpackData() *)
Definition Resample {K} (t : unpack) (udata : bbox K) (data : list (vec K)) : list (vec K) :=
  match t with
  | None_ => data
  | Mul => map (fun d => vmul d (min udata)) data
  | Madd => map (fun d => vadd (max udata) (vmul d (min udata))) data
  | Add => map (fun d => vadd d (min udata)) data
  | Other _ => data
  end.

(** RTSValue: rts.hpp 22-38 *)
Record rts (K : scalar) := RTS { translation : vec K; rotation : vec K; scale : vec K }.
Arguments RTS {_}. Arguments translation {_}. Arguments rotation {_}. Arguments scale {_}.
Definition RTSValue {K : scalar} : rts K :=
  RTS (all4 (s_int 0)) (V (s_int 0) (s_int 0) (s_int 0) (s_int 1)) (V (s_int 1) (s_int 1) (s_int 1) (s_int 0)).
Definition rts_eq {K : scalar} (eps : K) (a b : rts K) : bool :=
  veq eps (translation a) (translation b) && veq eps (rotation a) (rotation b) && veq eps (scale a) (scale b).
Definition rts_ne {K : scalar} (eps : K) (a b : rts K) : bool := negb (rts_eq eps a b).

(** Exceptions.  An exception object has a class and, unless it is a plain std::exception, a message.
    [bases] are the public bases of a class: a handler for a base class does not match a privately derived
    object (C++ [except.handle]). *)
Inductive class := Exception | LogicError | RuntimeError | ModifyError.
Record object := Obj { cls : class; message : string }.
Definition bases (c : class) : list class :=
  match c with
  | Exception => []
  | LogicError | RuntimeError => [Exception]
  | ModifyError => [] (* class ModifyError : std::runtime_error, private: exception.hpp 36 *)
  end.
(** does a handler for (a reference to) class h, or the handler for everything, take the object *)
Inductive handler := Catch (h : class) | CatchAll.
Definition class_eqb (a b : class) : bool :=
  match a, b with
  | Exception, Exception | LogicError, LogicError | RuntimeError, RuntimeError | ModifyError, ModifyError => true
  | _, _ => false
  end.
Definition takes (h : handler) (o : object) : bool :=
  match h with
  | CatchAll => true
  | Catch c => class_eqb (cls o) c || existsb (class_eqb c) (bases (cls o))
  end.
(** a std::exception made from an object of a derived class: the base part only *)
Definition slice (o : object) : object := Obj Exception "std::exception".
(** ThrowVoidCall(bool): exception.hpp 23-29; it returns by value, so the object is sliced *)
Definition ThrowVoidCall (logical : bool) : object :=
  if logical then slice (Obj LogicError "Unhandled call!") else slice (Obj RuntimeError "Unsupported call!").
(** ModifyError(name): exception.hpp 40-46 *)
Definition MakeModifyError (name : string) : object := Obj ModifyError ("Setting " ++ name ++ "is forbidden for this class!").

(** TransformType: common.hpp 29 *)
Inductive transform := TMTYPE_RTS | TMTYPE_MATRIX.
(** Bone::GetTM and Skin::GetTM as the base class defines them: skeleton.inl 21-26, model.inl 21-26.
    The argument is the type the object reports, the result the exception thrown *)
Definition GetTM_rts (t : transform) : object := ThrowVoidCall (match t with TMTYPE_RTS => true | _ => false end).
Definition GetTM_matrix (t : transform) : object := ThrowVoidCall (match t with TMTYPE_MATRIX => true | _ => false end).
(** MotionTrack::TrackType_e: motion.hpp 31-38; MotionTrack::GetValue: motion.inl 21-39 *)
Inductive track := Position | Rotation | Scale | Matrix | PositionRotationScale | SingleFloat.
Definition GetValue_rts (t : track) : object := ThrowVoidCall (match t with PositionRotationScale => true | _ => false end).
Definition GetValue_matrix (t : track) : object := ThrowVoidCall (match t with Matrix => true | _ => false end).
Definition GetValue_vector (t : track) : object := ThrowVoidCall (match t with Position | Rotation | Scale => true | _ => false end).
Definition GetValue_float (t : track) : object := ThrowVoidCall (match t with SingleFloat => true | _ => false end).
(** Motion::FrameRate(uint32): motion.inl 41 *)
Definition FrameRate : object := MakeModifyError "FrameRate".
