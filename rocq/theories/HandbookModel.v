(** Reading the MIL-HDBK-310 files shipped with the code (ADRpy/data/_MHDBK310): the files of
    the data directory that RunwayModel's [mil_hdbk_310] takes as an argument.
    Simplifications: a decimal number has its exact value; the notations of float() other
    than decimal numbers with or without an exponent after "e", and blanks other than the
    space, are not read (the files have none). *)
From Coq Require Import Ascii QArith.
From Verif Require Import Base AtmosModel ConceptModel PropulsionModel RunwayModel ShippedModel HandbookText.

(** the exponent: digits with or without a sign *)
Definition whole (s : string) : option Z := option_map Qnum (read_digits s 0 false (Some 1%positive)).
Definition exponent (s : string) : option Z :=
  match s with
  | String "+"%char r => whole r
  | String "-"%char r => option_map Z.opp (whole r)
  | _ => whole s
  end.
Definition times_ten (q : Q) (z : Z) : Q :=
  if Z.leb 0 z then Qmake (Qnum q * 10 ^ z) (Qden q) else Qmake (Qnum q) (Qden q * Z.to_pos (10 ^ (- z))).
(** float(s) *)
Definition sci (s : string) : option Q :=
  match split_on "e"%char s with
  | [m] => decimal m
  | [m; x] =>
      match decimal m, exponent x with
      | Some q, Some z => Some (times_ten q z)
      | _, _ => None
      end
  | _ => None
  end.
(** the fields of a line *)
Definition blank_fields (l : string) : list string := filter (fun s => negb (String.eqb s "")) (split_on " "%char l).
Definition to_sci (s : string) : res Q := match sci s with Some q => Ok q | None => Err ValueError end.
(* atmospheres.py:859, 862: np.loadtxt(_fstr, skiprows=0, unpack=True); lines without fields are
   skipped, the others must have the same number of fields.  The columns are returned. *)
Definition loadtxt (lines : list string) : res (list (list Q)) :=
  do rows <- mapM (mapM to_sci) (filter (fun r => negb (Nat.eqb (List.length r) 0)) (map blank_fields lines));
  match rows with
  | [] => Err ValueError
  | r0 :: _ =>
      if forallb (fun r => Nat.eqb (List.length r) (List.length r0)) rows
      then Ok (map (fun i => map (fun r => nth i r 0%Q) rows) (seq 0 (List.length r0)))
      else Err ValueError
  end.
(* atmospheres.py:847-848, 852: the files of the data directory.  A file that np.loadtxt refuses
   is given no columns: [mil_hdbk_310] raises ValueError for both. *)
Definition handbook_dir (name : string) : option columns :=
  match dget name handbook_lines with
  | None => None
  | Some l => Some (match loadtxt l with Ok cols => map (map Q2R) cols | Err _ => [] end)
  end.
