(** vodanalyzer/parse_dat_file.py: the checker of timing tables. *)
From Verif Require Import Base BytesModel TimelineModel VodModel.
Open Scope Z_scope.

(** parse_dat_file.py 9-20: the loop; [lste] is the last entry (a tuple, so
    true when it is there).  Gives the numbers of the mismatch messages in the
    order in which they are printed (17), and the exception that ends the loop,
    if any; the entries printed on request (18-19) are left out.  [fuel]: the
    length of the file is enough. *)
Fixpoint check_loop (fuel : nat) (data : bytes) (lste : option entry) : list (Z * Z) * option string :=
  match data, fuel with
  | [], _ => ([], None)
  | _, O => ([], None)
  | _, S f =>
      let chunk := btake 12 data in
      if blen chunk =? 12 then
        let ste := mk_entry (le_val (bslice 0 2 chunk)) (le_val (bslice 2 4 chunk))
                            (le_val (bslice 4 8 chunk)) (le_val (bslice 8 12 chunk)) in
        let said :=
          match lste with
          | Some l =>
              let last_end := e_start l + e_dur l * (e_rep l + 1) in
              if negb (last_end =? e_start ste) then [(e_start ste, last_end)] else []
          | None => []
          end in
        let '(more, e) := check_loop f (bdrop 12 data) (Some ste) in
        ((said ++ more)%list, e)
      else ([], Some "struct.error"%string)
  end.
(** parse_dat_file.py 8-20 [parse_dat_file] *)
Definition parse_dat_file (data : bytes) : list (Z * Z) * option string := check_loop (List.length data) data None.
