(** Model of [readInputB] and of the reading of the load file in [xldnew]: from the
    tables and texts to the cards.  pandas' [read_csv] itself is not modelled: a csv
    file is given as the table it delivers, with no empty fields and no repeated
    column names.  Characters are those of Latin-1. *)
From Coq Require Import String Ascii.
From Verif Require Import Base LoadModel HourModel ProgramModel DataModel MaintModel PrepModel.
Open Scope Z_scope.

(* ------------------------------------------------------------------ *)
(** ** Text *)
Notation chars := (list ascii).
(** [str.isspace] *)
Definition is_space (c : ascii) : bool :=
  let k := Z.of_nat (nat_of_ascii c) in
  ((9 <=? k) && (k <=? 13)) || ((28 <=? k) && (k <=? 32)) || (k =? 133) || (k =? 160).
(** [s.strip()] *)
Fixpoint lstrip (l : chars) : chars := match l with c :: r => if is_space c then lstrip r else l | [] => [] end.
Definition strip (l : chars) : chars := rev (lstrip (rev (lstrip l))).
(** [s.split(",")] and the like: there is always at least one piece *)
Fixpoint split_on (p : ascii -> bool) (l : chars) : list chars :=
  match l with
  | [] => [[]]
  | c :: r => if p c then [] :: split_on p r
              else match split_on p r with w :: ws => (c :: w) :: ws | [] => [[c]] end
  end.
(** [s.split()] *)
Definition words (l : chars) : list chars := filter (fun w => match w with [] => false | _ => true end) (split_on is_space l).
(** [f.readlines()]: every line with its end *)
Definition newline : ascii := ascii_of_nat 10.
Fixpoint lines_of (l : chars) : list chars :=
  match l with
  | [] => []
  | c :: r => if Ascii.eqb c newline then [c] :: lines_of r
              else match lines_of r with w :: ws => (c :: w) :: ws | [] => [[c]] end
  end.

(** [float(s)] for decimal numbers with an optional exponent, read exactly.  "inf",
    "nan" and underscores between digits, which Python accepts, are rejected here. *)
Definition digit (c : ascii) : option Z :=
  let k := Z.of_nat (nat_of_ascii c) in if (48 <=? k) && (k <=? 57) then Some (k - 48) else None.
Fixpoint digits (l : chars) (acc : Z) (n : nat) : Z * nat * chars :=
  match l with
  | c :: r => match digit c with Some d => digits r (10 * acc + d) (S n) | None => (acc, n, l) end
  | [] => (acc, n, [])
  end.
Definition sign (l : chars) : Z * chars :=
  match l with
  | c :: r => if Ascii.eqb c "-" then (-1, r) else if Ascii.eqb c "+" then (1, r) else (1, l)
  | [] => (1, [])
  end.
Definition pyfloat (s : chars) : option Qc :=
  let '(sg, l) := sign (strip s) in
  let '(ip, ni, l) := digits l 0 0 in
  let '(m, nf, l) := match l with c :: r => if Ascii.eqb c "." then digits r ip 0 else (ip, 0%nat, l) | [] => (ip, 0%nat, l) end in
  if Nat.eqb (ni + nf) 0 then None
  else
    let x := Qcdiv (qz (sg * m)) (qz (10 ^ Z.of_nat nf)) in
    match l with
    | [] => Some x
    | c :: r =>
        if Ascii.eqb c "e" || Ascii.eqb c "E" then
          let '(es, r) := sign r in
          let '(e, ne, r) := digits r 0 0 in
          if Nat.eqb ne 0 then None
          else match r with
               | [] => Some (if es =? 1 then Qcmult x (qz (10 ^ e)) else Qcdiv x (qz (10 ^ e)))
               | _ => None
               end
        else None
    end.
Definition floats (l : list chars) : res (list Qc) := rmap (fun w => of_option ValueError (pyfloat w)) l.

(** xldnew.py 27-35: one line of the load file *)
Definition parse_line (l : chars) : eei_line :=
  if String.eqb (string_of_list_ascii (firstn 4 l)) "AREA" then AreaLine (string_of_list_ascii l)
  else match floats (words (strip l)) with Ok v => Hours v | Err _ => BadLine end.
Definition leei_lines (text : string) : list eei_line := map parse_line (lines_of (list_ascii_of_string text)).

(* ------------------------------------------------------------------ *)
(** ** Tables *)
Inductive cell := Num (x : Qc) | Txt (s : string).
Record table := mkTable { t_head : list string; t_rows : list (list cell) }.
(** [df["name"].to_numpy()] *)
Definition column (t : table) (name : string) : res (list cell) :=
  do i <- index_of (t_head t) name;
  Ok (map (fun r => nth i r (Txt EmptyString)) (t_rows t)).
(** storing a column in an array of floats, of integers (truncation), using it as text.
    (Another kind of exception is raised for a number used as text: the slices and
    [strip] in dataf1.py and readInputB.py 387.) *)
Definition num (c : cell) : res Qc := match c with Num x => Ok x | Txt _ => Err ValueError end.
Definition text (c : cell) : res string := match c with Txt s => Ok s | Num _ => Err TypeError end.
Definition nums (t : table) (name : string) : res (list Qc) := do c <- column t name; rmap num c.
Definition ints (t : table) (name : string) : res (list Z) := do v <- nums t name; Ok (map qtrunc v).
Definition texts (t : table) (name : string) : res (list string) := do c <- column t name; rmap text c.
(** [df["name"].item()]: a table of exactly one row.  Only whole numbers are covered
    where the simulation needs one. *)
Definition item (t : table) (name : string) : res Qc :=
  do c <- column t name; match c with [x] => num x | _ => Err ValueError end.
Definition whole (t : table) (name : string) : res Z :=
  do x <- item t name; if qeqb (qz (qtrunc x)) x then Ok (qtrunc x) else Err ValueError.

(* ------------------------------------------------------------------ *)
(** ** The cards *)
(** readInputB.py 22-168.  II, IR, D and M only control output. *)
Definition read_misc (t : table) : res misc :=
  do seed <- whole t "SEED"; do ls <- whole t "LS";
  do w1 <- whole t "END WK1"; do w2 <- whole t "END WK2"; do w3 <- whole t "END WK3";
  do wh <- whole t "WHERE"; do wn <- whole t "WHEN"; do kvs <- whole t "KVS"; do kvt <- whole t "KVT"; do kvl <- whole t "KVL";
  do cvt <- item t "CVT"; do fin <- whole t "FIN"; do st <- whole t "STEP"; do fr <- whole t "FREQ"; do mx <- item t "MAXE";
  do ii <- item t "II"; do ij <- whole t "IJ"; do ir <- item t "IR"; do iv <- whole t "IN"; do d <- item t "D"; do m <- item t "M";
  Ok (mkMisc seed ls (w1, w2, w3) wh wn kvs kvt kvl cvt fin st fr mx ij iv).

(** readInputB.py 171-247.  SN and the weeks are read (and must be numbers). *)
Definition read_areas (t : table) : res (list (area_card string)) :=
  do sn <- ints t "SN"; do names <- texts t "AREA NAME"; do pk <- nums t "PEAK (MW)"; do lfu <- nums t "LFU";
  do o1 <- ints t "OUTAGE BEG WK"; do o2 <- ints t "OUTAGE END WK"; do b1 <- ints t "FORBIDDEN BEG WK"; do b2 <- ints t "FORBIDDEN END WK";
  do fl <- nums t "SUM OF FLOWS CONSTRAINT";
  Ok (map (fun i => mkArea (nth i names EmptyString) (nth i pk q0) (nth i lfu q0) (nth i fl q0)) (seq 0 (length (t_rows t)))).

(** readInputB.py 250-345 *)
Definition read_units (t : table) : res (list (unit_card string)) :=
  do sn <- ints t "SN"; do names <- texts t "NAME"; do loc <- texts t "LOC";
  do c1 <- nums t "CAP1"; do c2 <- nums t "CAP2"; do c3 <- nums t "CAP3"; do c4 <- nums t "CAP4";
  do df <- nums t "DFOR"; do fo <- nums t "FOR"; do de <- nums t "DER"; do pa <- ints t "P/A";
  do b1 <- ints t "B1"; do d1 <- ints t "D1"; do b2 <- ints t "B2"; do d2 <- ints t "D2";
  Ok (map (fun i => mkUnit (nth i names EmptyString) (nth i loc EmptyString) [nth i c1 q0; nth i c2 q0; nth i c3 q0; nth i c4 q0]
                           (nth i df q0) (nth i fo q0) (nth i de q0) (zget pa i) (zget b1 i) (zget d1 i) (zget b2 i) (zget d2 i))
          (seq 0 (length (t_rows t)))).

(** readInputB.py 385-391: 24 numbers, four for each of the six states *)
Definition read_meta (s : string) : res (list Qc) :=
  do v <- floats (split_on (Ascii.eqb ",") (strip (list_ascii_of_string s)));
  if Nat.eqb (length v) 24 then Ok v else Err ValueError.
Definition every4 (k : nat) (v : list Qc) : list Qc := map (fun i => nth (4 * i + k) v q0) (seq 0 6).
(** readInputB.py 348-398 *)
Definition read_lines (t : table) : res (list (line_card string)) :=
  do sn <- column t "SN"; do ids <- nums t "LINE NUMBER"; do fr <- texts t "FROM AREA"; do to <- texts t "TO AREA";
  do meta <- texts t "META DATA"; do ms <- rmap read_meta meta;
  Ok (map (fun i => let v := nth i ms [] in
                    mkLineC (qtrunc (nth i ids q0)) (nth i fr EmptyString) (nth i to EmptyString) (every4 0 v) (every4 1 v) (every4 2 v) (every4 3 v))
          (seq 0 (length (t_rows t)))).

(** readInputB.py 401-444 *)
Definition read_contracts (t : table) : res (list (fc_card string)) :=
  do sn <- column t "SN"; do fr <- texts t "FROM AREA"; do to <- texts t "TO AREA"; do b <- nums t "BEG DAY"; do e <- nums t "END DAY"; do mw <- nums t "MW";
  Ok (map (fun i => mkFc (nth i fr EmptyString) (nth i to EmptyString) (qtrunc (nth i b q0)) (qtrunc (nth i e q0)) (nth i mw q0)) (seq 0 (length (t_rows t)))).
(** readInputB.py 447-478: the percentages are one column *)
Definition read_owners (t : table) : res (list string) :=
  do sn <- column t "SN"; do names <- texts t "UNIT NAME"; do pct <- column t "PERCENT OWNED BY AREA"; Ok names.
(** readInputB.py 481-524: the columns must exist; nothing uses them *)
Definition read_deratings (t : table) : res unit :=
  do sn <- column t "SN"; do ln <- column t "LINE NUMBER"; do u1 <- column t "UNIT1"; do u2 <- column t "UNIT2"; do u3 <- column t "UNIT3"; do u4 <- column t "UNIT4";
  do fw <- column t "FORWARD"; do bw <- column t "BACKWARD"; Ok tt.

(** readInputB.py 527-545 (without the title) *)
Record files := mkFiles { f_misc : table; f_areas : table; f_units : table; f_lines : table; f_fc : table; f_od : table; f_dd : table; f_leei : string }.
Definition read_cards (f : files) : res (cards string) :=
  do m <- read_misc (f_misc f); do a <- read_areas (f_areas f); do u <- read_units (f_units f); do l <- read_lines (f_lines f);
  do c <- read_contracts (f_fc f); do o <- read_owners (f_od f); do d <- read_deratings (f_dd f);
  Ok (mkCards m a u l c o Column).

Section FILES.
Variable rest : Type.
Variables (loss : Qc -> Qc) (presched : list punit -> mst rest -> res (list Qc * list Z * mst rest))
          (block : nat -> nat -> nat -> mst rest -> res (mst rest)) (r0 : rest).
(** dataf1.py, from the files *)
Definition dataf1_files (f : files) : res (input * list (list Qc)) :=
  do c <- read_cards f; dataf1 rest loss presched block r0 c (leei_lines (f_leei f)).
End FILES.
