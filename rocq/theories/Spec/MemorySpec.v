(** Vocabulary for streams which may share arrays. *)
From Verif Require Import Model.Memory.

(** the data of all traces are in existing arrays *)
Definition allocated (w : world) : Prop :=
  forall l, let v := v_arr (w_obj w l) in
    v_buf v < List.length (w_mem w) /\ v_off v + v_len v <= List.length (nth (v_buf v) (w_mem w) []).
(** traces with a sample in common *)
Definition share_sample (t u : vtrace) : Prop :=
  exists i j, i < v_len (v_arr t) /\ j < v_len (v_arr u) /\ v_buf (v_arr t) = v_buf (v_arr u) /\ v_off (v_arr t) + i = v_off (v_arr u) + j.
(** the stream consists of different traces without common samples *)
Definition separate (w : world) (ls : list loc) : Prop :=
  NoDup ls /\ forall l l', In l ls -> In l' ls -> l <> l' -> ~ share_sample (w_obj w l) (w_obj w l').

(** The traces which a call is applied to, and the places for the traces which it creates. *)
Definition arguments (c : call) : list loc :=
  match c with
  | KFilter ls | KTrim _ _ _ ls | KRf _ ls | KMoveout ls | KSlice _ _ _ _ ls _ | KInit ls _ | KCopy ls _ => ls
  end.
Definition creates (c : call) : list loc :=
  match c with
  | KFilter _ | KTrim _ _ _ _ | KRf _ _ | KMoveout _ => []
  | KSlice _ _ _ _ _ new | KInit _ new | KCopy _ new => new
  end.
Definition is_moveout (c : call) : Prop := match c with KMoveout _ => True | _ => False end.
(** the traces of a result; a call which fails returns none *)
Definition returned (r : res (list loc)) : list loc := match r with Ok ls => ls | Err _ => [] end.

(** A program which has hold of the traces [ls] only: it calls methods for streams made of them, and
    gets hold of the traces of the streams which are returned. New traces are not stored at places
    which are in use [elsewhere]. *)
Inductive program (step : call -> world -> world * res (list loc)) (allowed : call -> Prop) (elsewhere : loc -> Prop)
  : list loc -> world -> world -> Prop :=
| prog_end ls w : program step allowed elsewhere ls w w
| prog_call ls w c w' : allowed c -> incl (arguments c) ls -> (forall l, In l (creates c) -> ~ elsewhere l) ->
    program step allowed elsewhere (returned (snd (step c w)) ++ ls) (fst (step c w)) w' ->
    program step allowed elsewhere ls w w'.
(** any call is allowed *)
Definition anything (c : call) : Prop := True.

(** no array is used by both *)
Definition apart (w : world) (ls : list loc) (elsewhere : loc -> Prop) : Prop :=
  forall l l', In l ls -> elsewhere l' -> v_buf (v_arr (w_obj w l)) <> v_buf (v_arr (w_obj w l')).
(** the moveout correction does not change the number of samples *)
Definition keeps_length (mo : trace -> res (list Q)) : Prop := forall t d, mo t = Ok d -> List.length d = List.length (data t).

(** a method for groups of traces: changes the traces of the group only, and the data of those
    which get new arrays only *)
Definition group_method (f : list loc -> heap -> heap * res unit) (new : list loc -> list loc) : Prop :=
  forall g h, (forall l, ~ In l g -> fst (f g h) l = h l) /\ incl (new g) g /\
              (forall l, ~ In l (new g) -> data (fst (f g h) l) = data (h l)).
