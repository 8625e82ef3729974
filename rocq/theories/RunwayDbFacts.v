(** Facts about the rows of the shipped runway database, by computation. *)
From Coq Require Import Ascii QArith.
From Verif Require Import Base PropulsionModel ShippedModel RunwayText RunwayDbSpec.

(** a number in which the codes are in ascending order: capitals do not count *)
Definition lower_case (c : ascii) : N := let n := N_of_ascii c in if (N.leb 65 n && N.leb n 90)%bool then (n + 32)%N else n.
Fixpoint code_key (len : nat) (s : string) (acc : N) : N :=
  match len with
  | O => acc
  | S len => match s with
             | EmptyString => code_key len EmptyString (128 * acc)%N
             | String c r => code_key len r (128 * acc + lower_case c)%N
             end
  end.
Fixpoint ascending (low : N) (l : list string) : bool :=
  match l with
  | [] => true
  | s :: r => let k := code_key 7 s 0 in if N.ltb low k then ascending k r else false
  end.
Lemma codes_ascend : ascending 0 (map fst shipped_airports) = true.
Proof. vm_cast_no_check (eq_refl true). Qed.
Lemma no_header_code : existsb (String.eqb "airport_ident") (map fst shipped_airports) = false.
Proof. vm_cast_no_check (eq_refl false). Qed.

Fixpoint numbers (l : list string) : option (list Q) :=
  match l with
  | [] => Some []
  | s :: r => match decimal s, numbers r with Some q, Some t => Some (q :: t) | _, _ => None end
  end.
Definition six_texts (s : string) : list string := let f := split_on ","%char s in map (fun i => nth i f ""%string) (seq 0 6).
Definition six (s : string) : option (list Q) := numbers (six_texts s).
Definition listed (c : string) (l : list string) : bool := existsb (String.eqb c) l.
Definition qabs (q : Q) : Q := Qmake (Z.abs (Qnum q)) (Qden q).
Definition plausible (c : string) (v : list Q) : bool :=
  match v with
  | [l; w; e1; h1; e2; h2] =>
      (Qle_bool 23 l && Qle_bool l 16404 && Qle_bool 20 w && Qle_bool w 5000 &&
       Qle_bool (-1246) e1 && Qle_bool e1 13202 && Qle_bool (-1266) e2 && Qle_bool e2 13314 &&
       Qle_bool 0 h1 && Qle_bool h1 360 && Qle_bool 0 h2 && Qle_bool h2 363 &&
       (if Qle_bool h2 360 then true else listed c ["EGCL"; "EGED"]) &&
       (if Qle_bool w l then negb (Qle_bool l w) else listed c ["CPC7"; "EINN"]) &&
       (if Qle_bool (qabs (qabs (h1 - h2) - 180)) 10 then true else listed c crooked))%bool%string
  | _ => false
  end.
(** the rows that can be read, the airports without any, and whether all rows are plausible *)
Fixpoint survey_rows (c : string) (l : list string) (good : N) (fine : bool) : N * bool :=
  match l with
  | [] => (good, fine)
  | s :: r => match six s with
              | None => survey_rows c r good fine
              | Some v => survey_rows c r (N.succ good) (if plausible c v then fine else false)
              end
  end.
Fixpoint survey (l : list (string * list string)) (rows good airports none : N) (fine : bool) : N * N * N * N * bool :=
  match l with
  | [] => (rows, good, airports, none, fine)
  | (c, ss) :: r =>
      let '(g, f) := survey_rows c ss 0 fine in
      survey r (rows + N.of_nat (List.length ss))%N (good + g)%N (N.succ airports) (if N.eqb g 0 then N.succ none else none) f
  end.
Lemma surveyed : survey shipped_airports 0 0 0 0 true = (40489, 10425, 34113, 26685, true)%N.
Proof. vm_cast_no_check (eq_refl (40489, 10425, 34113, 26685, true)%N). Qed.

Lemma groups_nonempty : forallb (fun a => match snd a with [] => false | _ => true end) shipped_airports = true.
Proof. vm_cast_no_check (eq_refl true). Qed.
(** an airport with a row of a certain kind *)
Fixpoint group_of (c : string) (l : list (string * list string)) : list string :=
  match l with [] => [] | a :: r => if String.eqb (fst a) c then snd a else group_of c r end.
Definition shows (P : list Q -> bool) (c : string) : bool :=
  existsb (fun s => match six s with Some v => P v | None => false end) (group_of c shipped_airports).
Definition off_line (v : list Q) : bool := match v with [l; w; e1; h1; e2; h2] => negb (Qle_bool (qabs (qabs (h1 - h2) - 180)) 10) | _ => false end.
Definition beyond_360 (v : list Q) : bool := match v with [l; w; e1; h1; e2; h2] => negb (Qle_bool h2 360) | _ => false end.
Definition too_wide (v : list Q) : bool := match v with [l; w; e1; h1; e2; h2] => negb (Qle_bool w l) | _ => false end.
Lemma crooked_shown : forallb (shows off_line) crooked = true.
Proof. vm_cast_no_check (eq_refl true). Qed.
Lemma beyond_shown : forallb (shows beyond_360) ["EGCL"; "EGED"]%string = true.
Proof. vm_cast_no_check (eq_refl true). Qed.
Lemma wide_shown : forallb (shows too_wide) ["CPC7"; "EINN"]%string = true.
Proof. vm_cast_no_check (eq_refl true). Qed.
Lemma heathrow : group_of "EGLL" shipped_airports = ["12799,164,79,89.6,78,269.6"; "12001,148,75,90,77,270"]%string.
Proof. vm_cast_no_check (eq_refl ["12799,164,79,89.6,78,269.6"; "12001,148,75,90,77,270"]%string). Qed.
Lemma denver : List.length (group_of "KDEN" shipped_airports) = 6%nat /\ exists r, group_of "KDEN" shipped_airports = "12000,150,5347,90.5,5352,270.5"%string :: r.
Proof. split; [vm_cast_no_check (eq_refl 6%nat)|]. exists (tl (group_of "KDEN" shipped_airports)). vm_cast_no_check (eq_refl (group_of "KDEN" shipped_airports)). Qed.
(** two neighbours *)
Fixpoint neighbours (c : string) (l : list (string * list string)) : option ((string * list string) * (string * list string)) :=
  match l with
  | a :: (b :: _) as r => if String.eqb (fst b) c then Some (a, b) else neighbours c r
  | _ => None
  end.
Lemma two : exists r, neighbours "2K1" shipped_airports = Some (("2K0", ["2797,100,737,179,722,360"]), ("2K1", r))%string.
Proof. exists ["1220,30,1061,157,1061,337"; "2320,430,1061,180,1061"]%string.
  vm_cast_no_check (eq_refl (Some (("2K0", ["2797,100,737,179,722,360"]), ("2K1", ["1220,30,1061,157,1061,337"; "2320,430,1061,180,1061"])))%string). Qed.
