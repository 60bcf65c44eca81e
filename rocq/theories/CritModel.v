(** dashlib/mp4.py 103-117 and 187-218: finding boxes by paths with attribute
    criteria, as in trak.tkhd[track_id=2]. *)
From Verif Require Import Base BytesModel.
Open Scope Z_scope.

(** A box: type, attributes (the text that str() makes of the value, in ASCII),
    children.  Children are taken as parsed (193-194). *)
Inductive obj := Obj (t : bytes) (attrs : list (bytes * bytes)) (l : list obj).
Definition o_type (o : obj) : bytes := match o with Obj t _ _ => t end.
Definition o_attrs (o : obj) : list (bytes * bytes) := match o with Obj _ a _ => a end.
Definition o_children (o : obj) : list obj := match o with Obj _ _ l => l end.
(** getattr(obj, key) as text, mp4.py 106-107 *)
Fixpoint attribute (key : bytes) (l : list (bytes * bytes)) : result bytes :=
  match l with
  | [] => Err "AttributeError"
  | (k, v) :: l => if bytes_eqb k key then Ok v else attribute key l
  end.
(** mp4.py 105: crit.split(b'=') into exactly two parts *)
Fixpoint split_eq (crit : bytes) : result (bytes * bytes) :=
  match crit with
  | [] => Err "ValueError"
  | c :: r => if c =? 61 then (if existsb (Z.eqb 61) r then Err "ValueError" else Ok ([], r))
              else let* (k, v) := split_eq r in Ok (c :: k, v)
  end.
(** mp4.py 103-107 match_attribute *)
Definition match_attribute (o : obj) (crit : bytes) : result bool :=
  let* (key, value) := split_eq crit in
  let* obj_value := attribute key (o_attrs o) in
  Ok (bytes_eqb obj_value value).
(** mp4.py 110-117 match_box; None (no case applies) counts as false *)
Definition match_box (o : obj) (criteria : bytes) : result bool :=
  if blen criteria =? 4 then Ok (bytes_eqb (o_type o) criteria)
  else if existsb (Z.eqb 91) criteria then
    if bytes_eqb (o_type o) (btake 4 criteria) then match_attribute o (bslice 5 (blen criteria - 1) criteria) else Ok false
  else Ok false.
(** mp4.py 199-203: the list of matching children, all of it *)
Fixpoint matching (l : list obj) (criteria : bytes) : result (list obj) :=
  match l with
  | [] => Ok []
  | o :: l => let* b := match_box o criteria in let* r := matching l criteria in Ok (if b then o :: r else r)
  end.
(** mp4.py 207 [if matching_children:]; a filter object is always true *)
Definition truthy (criteria : bytes) (l : list obj) : bool :=
  if blen criteria =? 4 then match l with [] => false | _ => true end else true.
(** mp4.py 188-218: the queue of boxes with the parts of the path still to go (parts
    are not empty here, the step to the parent (205) is left out); gives the list
    matches, or with return_first the list of matches[0], which is [] as well if
    there is nothing.  [fuel]: the number of boxes is enough. *)
Fixpoint find_loop (fuel : nat) (first : bool) (queue : list (obj * list bytes)) (matches : list obj) : result (list obj) :=
  match fuel, queue with
  | _, [] => Ok matches
  | O, _ => Err "fuel"
  | S f, (o, parts) :: queue =>
      match parts with
      | [] => Err "IndexError"
      | c :: rest =>
          let* l := matching (o_children o) c in
          if truthy c l then
            match rest with
            | [] =>
                let matches := (matches ++ l)%list in
                if first then match matches with [] => Err "IndexError" | m :: _ => Ok [m] end
                else find_loop f first queue matches
            | _ => find_loop f first (map (fun x => (x, rest)) l ++ queue)%list matches
            end
          else find_loop f first queue matches
      end
  end.
Fixpoint boxes (o : obj) : nat := match o with Obj _ _ l => S (list_sum (map boxes l)) end.
(** mp4.py 187-218, the general part of find; [parts] is path.split(b'.') *)
Definition find_general (o : obj) (parts : list bytes) (first : bool) : result (list obj) := find_loop (boxes o) first [(o, parts)] [].
(** mp4.py 172-218 find: a path of four bytes is looked up directly (174-185).  Parts
    shorter than four bytes are not types, paths of four bytes made of these are left out. *)
Definition find (o : obj) (parts : list bytes) (first : bool) : result (list obj) :=
  match parts with
  | [c] => if blen c =? 4 then
             if first then match List.find (fun x => bytes_eqb (o_type x) c) (o_children o) with Some x => Ok [x] | None => Ok [] end
             else Ok (filter (fun x => bytes_eqb (o_type x) c) (o_children o))
           else find_general o parts first
  | _ => find_general o parts first
  end.
