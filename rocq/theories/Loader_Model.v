(** Model of the remaining methods of [Loader] in skyfield/iokit.py: the standard tables,
    [build_url], [download], [timescale] and [load_file]; and of the bundled Earth
    orientation arrays. *)
From Coq Require Import List Ascii String ZArith Bool.
From Coq Require Import List.
From Verif Require Import Download_Model Files_Model Float64.
Import ListNotations.
Open Scope bool_scope.
Open Scope list_scope.

(** iokit.py 62-66. *)
Definition IERS : name := chars "https://hpiers.obspm.fr/iers/bul/bulc/".
Definition IERS2 : name := chars "https://datacenter.iers.org/products/eop/rapid/standard/".
Definition JPL : name := chars "https://ssd.jpl.nasa.gov/ftp/eph/planets/bsp/".
Definition NAIF_KERNELS : name := chars "https://naif.jpl.nasa.gov/pub/naif/generic_kernels/".
Definition NAIF : name := chars "https://naif.jpl.nasa.gov/pub/naif/generic_kernels/spk/satellites/".
(** iokit.py 105-147, [Loader.__init__]. Making the directory is left out. *)
Inductive parser := ParseDeltatData | ParseDeltatPreds | ParseLeapSeconds.
Inductive opener := OpenKernel | OpenBinary.
Definition new_loader (directory : name) : loader parser opener :=
  {| directory := directory;
     urls := [(chars "finals2000A.all", Direct IERS2);
              (chars "Leap_Second.dat", Direct IERS);
              (chars "moon_080317.tf", Direct (NAIF_KERNELS ++ chars "fk/satellites/"));
              (chars "moon_pa_de421_1900-2050.bpc", Direct (NAIF_KERNELS ++ chars "pck/"));
              (chars "pck00008.tpc", Direct (NAIF_KERNELS ++ chars "pck/a_old_versions/"));
              (chars ".bsp", Patterns [(chars "jup*.bsp", NAIF); (chars "*.bsp", JPL)])];
     parsers := [(chars "deltat.data", Direct ParseDeltatData);
                 (chars "deltat.preds", Direct ParseDeltatPreds);
                 (chars "Leap_Second.dat", Direct ParseLeapSeconds)];
     openers := [(chars ".bsp", Patterns [(chars "*.bsp", OpenKernel)]);
                 (chars ".bpc", Patterns [(chars "*", OpenBinary)]);
                 (chars ".tpc", Patterns [(chars "*", OpenBinary)]);
                 (chars ".tf", Patterns [(chars "*", OpenBinary)])] |}.

(** iokit.py 220-231, [build_url]. [None]: an exception ([TypeError] for a list). *)
Definition build_url {P O} (L : loader P O) (filename : name) : option name :=
  match search (urls L) filename with
  | Some (Direct (c :: u)) => Some ((c :: u) ++ filename)
  | _ => None
  end.
(** iokit.py 276-300, [Loader.download]: the requests and the path that is returned. *)
Definition download_file {P O} (L : loader P O) (url : name) (filename : option name) : list (name * name) * option name :=
  match (if contains (chars "://") url then Some url else build_url L url) with
  | None => ([], None)
  | Some url =>
      let filename := match filename with Some f => f | None => url_filename url end in
      let path := path_to L filename in
      ([(url, path)], Some path)
  end.
(** iokit.py 399-413, [load_file], after [expanduser]. *)
Definition load_file (path : name) : option name :=
  if name_eqb (splitext path) (chars ".bsp") then Some path else None.

(** iokit.py 332-380, [Loader.timescale]: the requests, and where the Delta T table and
    the leap seconds come from. *)
Inductive source :=
| Bundled
| LegacyFiles (data preds leaps : name)
| FinalsFile (path : name).
Inductive delta_t_source := TableOf (s : source) | Constant (seconds : Z).
Record timescale := Timescale { delta_t_from : delta_t_source; leaps_from : source }.
Definition parsed_path {O} (e : ended parser O) : option name :=
  match e with ParsedWith _ path => Some path | _ => None end.
Definition load_timescale (L : loader parser opener) (exists_path : name -> bool) (delta_t : option Z) (builtin : bool)
  : list (option name * name) * option timescale :=
  let e f := exists_path (path_to L (chars f)) in
  let finish (net : list (option name * name)) (s : source) :=
    (net, Some (Timescale (match delta_t with Some c => Constant c | None => TableOf s end) s)) in
  if builtin then finish [] Bundled
  else if e "deltat.data"%string && e "deltat.preds"%string && e "Leap_Second.dat"%string then
    let '(n1, r1) := call_loader L exists_path (chars "deltat.data") false false in
    let '(n2, r2) := call_loader L exists_path (chars "deltat.preds") false false in
    let '(n3, r3) := call_loader L exists_path (chars "Leap_Second.dat") false false in
    match parsed_path r1, parsed_path r2, parsed_path r3 with
    | Some p1, Some p2, Some p3 => finish (n1 ++ n2 ++ n3) (LegacyFiles p1 p2 p3)
    | _, _, _ => (n1 ++ n2 ++ n3, None)
    end
  else
    match build_url L (chars "finals2000A.all") with
    | None => ([], None)
    | Some url =>
        match open_loader L exists_path url None false with
        | (net, Opened path) => finish net (FinalsFile path)
        | (net, _) => (net, None)
        end
    end.

(** [numpy.rint] and [ndarray.round(7)]: scaled, rounded half to even, and scaled back. *)
Definition nearest_int (n d : Z) : Z :=
  let q := (n / d)%Z in
  let r := (n mod d)%Z in
  if (2 * r <? d)%Z then q else if (d <? 2 * r)%Z then (q + 1)%Z else if Z.even q then q else (q + 1)%Z.
Definition frint (a : b64) : b64 :=
  match a with
  | SpecFloat.S754_finite s m e =>
      let n := if s then Zneg m else Zpos m in
      let z := if (0 <=? e)%Z then (n * 2 ^ e)%Z else nearest_int n (2 ^ (- e)) in
      if (z =? 0)%Z then SpecFloat.S754_zero s else of_Z z
  | _ => a
  end.
Definition e7 : b64 := of_Z 10000000.
Definition round7 (a : b64) : b64 := fdiv (frint (fmul a e7)) e7.
(** iokit.py 351-358: the bundled arrays. *)
Fixpoint add_arange (i : Z) (l : list b64) : list b64 :=
  match l with [] => [] | x :: l => fadd x (of_Z i) :: add_arange (i + 1) l end.
Definition bundled_tt (tt_jd_minus_arange : list b64) : list b64 := add_arange 0 tt_jd_minus_arange.
Definition bundled_delta_t (delta_t_1e7 : list b64) : list b64 := map (fun n => round7 (fdiv n e7)) delta_t_1e7.
(** builders/build_arrays.py 68-76: what the arrays are made of. *)
Fixpoint minus_arange (i : Z) (l : list b64) : list b64 :=
  match l with [] => [] | x :: l => fsub x (of_Z i) :: minus_arange (i + 1) l end.
Definition stored_tt (daily_tt : list b64) : list b64 := minus_arange 0 daily_tt.
Definition stored_delta_t (daily_delta_t : list b64) : list b64 := map (fun d => frint (fmul d e7)) daily_delta_t.
