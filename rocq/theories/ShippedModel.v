(** Reading the engine data files shipped with the code (ADRpy/data/engine_data): the
    functions that PropulsionModel takes as arguments.  Simplifications: a decimal number
    has its exact value; numbers with an exponent and other notations of float() are not
    read (the files have none); pandas is modelled for lines of plain numbers, an empty
    field being nan. *)
From Coq Require Import Ascii QArith.
From Verif Require Import Base AtmosModel ConceptModel PropulsionModel ShippedText.

Definition digit (c : ascii) : option Z :=
  let n := nat_of_ascii c in
  if (Nat.leb 48 n && Nat.leb n 57)%bool then Some (Z.of_nat (n - 48)) else None.
(** the digits still to be read; [scale] is 10 to the number of digits behind the point, once
    the point has been read *)
Fixpoint read_digits (s : string) (acc : Z) (seen : bool) (scale : option positive) : option Q :=
  match s with
  | EmptyString => if seen then Some (Qmake acc match scale with Some p => p | None => 1%positive end) else None
  | String c r =>
      match digit c with
      | Some d => read_digits r (10 * acc + d)%Z true
                    (match scale with Some p => Some (10 * p)%positive | None => None end)
      | None => if (Ascii.eqb c "." && match scale with None => true | Some _ => false end)%bool
                then read_digits r acc seen (Some 1%positive) else None
      end
  end.
(** float(s) *)
Definition decimal (s : string) : option Q :=
  match s with
  | String "-"%char r => option_map Qopp (read_digits r 0 false None)
  | _ => read_digits s 0 false None
  end.
Definition to_num (q : Q) : num := Fin (Q2R q).
Definition parse_float (s : string) : option num := option_map to_num (decimal s).

(** the lines of a file of one of the four directories *)
Definition file_lines (f : string) : option (list string) :=
  dget f (jet_lines ++ turboprop_lines ++ piston_lines ++ electric_lines)%list.
(* propulsion.py:1827-1829: file.read() *)
Definition shipped_text (f : string) : res string :=
  match file_lines f with
  | Some l => Ok (String.concat (String "010"%char EmptyString) l)
  | None => Err FileNotFoundError
  end.

(** one field of a table: nan if it is empty, or not there *)
Definition field (i : nat) (row : list string) : res (option Q) :=
  match nth i row EmptyString with
  | EmptyString => Ok None
  | s => match decimal s with Some q => Ok (Some q) | None => Err ValueError end
  end.
Definition column (rows : list (list string)) (ik : nat * string) : res (string * list (option Q)) :=
  do c <- mapM (field (fst ik)) rows; Ok (snd ik, c).
(* propulsion.py:1769, 1788: pd.read_csv; empty lines are skipped *)
Definition csv_columns (lines : list string) : res (dict (list (option Q))) :=
  match filter (fun l => negb (String.eqb l "")) lines with
  | [] => Err ValueError
  | header :: rows =>
      mapM (column (map (split_on ","%char) rows)) (enumerate (split_on ","%char header))
  end.
Definition entry_num (x : option Q) : num := match x with Some q => to_num q | None => NonFin end.
Definition num_frame (d : dict (list (option Q))) : frame := map (fun p => (fst p, map entry_num (snd p))) d.
Definition shipped_csv (f : string) : res frame :=
  match file_lines f with
  | Some l => rmap num_frame (csv_columns l)
  | None => Err FileNotFoundError
  end.
