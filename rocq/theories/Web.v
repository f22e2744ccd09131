(** Model of /repo/pyrtlib/apiwebservices/webservices.py and of the requests and metadata of
    /repo/pyrtlib/apiwebservices/wyomingupperair.py.  The server is an arbitrary function from URLs to responses; sessions,
    headers and the HTML parser are not modelled; the tables read from the pages are in WyoTable.v. *)

From Coq Require Import ZArith List Bool Ascii String.
Import ListNotations.
From Verif Require Import Arith PyBase PyStr Igra.
Local Open Scope Z_scope.

(** What a server sends back. *)
Record response := Resp { status : Z; content_type : str; reason : str; text : str }.
Definition server := str -> response.

(** [str.startswith], [str.endswith] for one character *)
Definition starts_with (c : ascii) (s : str) : bool := match s with x :: _ => chr_eqb x c | [] => false end.
Definition ends_with (c : ascii) (s : str) : bool := starts_with c (rev s).

(** [posixpath.join] of two texts *)
Definition posix_join (a b : str) : str :=
  if starts_with "/" b then b
  else match a with
       | [] => b
       | _ => if ends_with "/" a then a ++ b else a ++ tx "/" ++ b
       end.

(** webservices.py lines 131-151 [_url_path] *)
Definition url_path (base path : str) : str := posix_join base path.
(** webservices.py lines 108-129 [_get_query]: an empty base raises *)
Definition query_url (base : str) : result str :=
  match base with
  | [] => Err IndexError
  | _ => Ok (if ends_with "/" base then removelast base else base)
  end.
(** webservices.py lines 178-215 [_get] *)
Definition http_get (net : server) (url : str) : result response :=
  let resp := net url in
  if negb (status resp =? 200) then Err HTTPError else Ok resp.
(** webservices.py lines 153-176 [_get_path] *)
Definition get_path (net : server) (base path : str) : result response := http_get net (url_path base path).

(** igra2.py line 58: address of the archive *)
Definition igra_base : str := tx "https://www.ncei.noaa.gov/data/integrated-global-radiosonde-archive/access/".
(** igra2.py lines 150-166: the archive of a station; an error of the server becomes a ValueError *)
Definition igra_fetch (net : server) (site_id : str) (beg2021 derived : bool) : result response :=
  match get_path net igra_base (igra_path site_id beg2021 derived) with
  | Err HTTPError => Err ValueError
  | r => r
  end.

(** [strftime]: [%m], [%d], [%H] have two digits; [%Y] is not padded by the GNU C library *)
Definition dg (d : Z) : ascii := ascii_of_N (Z.to_N (48 + d)).
Definition fmt2 (z : Z) : str := [dg (z / 10 mod 10); dg (z mod 10)].
Definition fmt_year (z : Z) : str :=
  if z <? 10 then [dg z]
  else if z <? 100 then [dg (z / 10); dg (z mod 10)]
  else if z <? 1000 then [dg (z / 100); dg (z / 10 mod 10); dg (z mod 10)]
  else [dg (z / 1000); dg (z / 100 mod 10); dg (z / 10 mod 10); dg (z mod 10)].

(** wyomingupperair.py line 26 *)
Definition wyoming_base : str := tx "http://weather.uwyo.edu/cgi-bin/sounding".
(** wyomingupperair.py lines 205-207 *)
Definition wyoming_path (time : datetime) (site_id : str) : str :=
  tx "?region=naconf&TYPE=TEXT%3ALIST" ++ tx "&YEAR=" ++ fmt_year (yr time) ++ tx "&MONTH=" ++ fmt2 (mo time) ++
  tx "&FROM=" ++ fmt2 (dy time) ++ fmt2 (hr time) ++ tx "&TO=" ++ fmt2 (dy time) ++ fmt2 (hr time) ++ tx "&STNM=" ++ site_id.
(** wyomingupperair.py lines 105-108: page of the stations of a region *)
Definition stations_url (region : str) : str := url_path (tx "http://weather.uwyo.edu/upperair/") (region ++ tx ".html").

(** [s.find(t) != -1] *)
Fixpoint prefix_of (t s : str) : bool :=
  match t, s with
  | [], _ => true
  | c :: t', d :: s' => chr_eqb c d && prefix_of t' s'
  | _ :: _, [] => false
  end.
Fixpoint contains (t s : str) : bool := prefix_of t s || match s with [] => false | _ :: s' => contains t s' end.
(** wyomingupperair.py lines 190-216 [_get_data_raw] *)
Definition wyoming_raw (net : server) (time : datetime) (site_id : str) : result str :=
  do resp <- get_path net wyoming_base (wyoming_path time site_id);
  if contains (tx "Can't") (text resp) then Err ValueError else Ok (text resp).

(** [str.split(c)] for one character *)
Fixpoint split_at (c : ascii) (s : str) : list str :=
  match s with
  | [] => [[]]
  | x :: s' => if chr_eqb x c then [] :: split_at c s'
               else match split_at c s' with w :: l => (x :: w) :: l | [] => [[x]] end
  end.

(** [datetime.strptime(s, '%y%m%d/%H%M')]. Simplified: exactly two digits per field are accepted; years 69-99 are in the last century. *)
Definition two (s : str) : result Z := match s with [a; b] => if is_digit a && is_digit b then Ok (10 * digit a + digit b) else Err ValueError | _ => Err ValueError end.
Definition strptime (s : str) : result datetime :=
  if negb (Nat.eqb (List.length s) 11) || negb (str_eqb (str_slice s 6 7) (tx "/")) then Err ValueError
  else
  do y <- two (str_slice s 0 2);
  do m <- two (str_slice s 2 4);
  do d <- two (str_slice s 4 6);
  do h <- two (str_slice s 7 9);
  do n <- two (str_slice s 9 11);
  do t <- mk_datetime (if y <=? 68 then 2000 + y else 1900 + y) m d h;
  if n <=? 59 then Ok (DT (yr t) (mo t) (dy t) (hr t) n 0) else Err ValueError.

(** [line.split(':')[1].strip()] *)
Definition meta_value (line : str) : result str := do v <- py_get (split_at ":" line) 1; Ok (strip v).

Record metadata := Meta { m_station : str; m_number : Z; m_time : datetime; m_lat : dec; m_lon : dec; m_elev : dec }.
(** wyomingupperair.py lines 151-165: the metadata block of a sounding *)
Definition wyoming_meta (lines0 : list str) : result metadata :=
  do l1 <- py_get lines0 1;
  let lines := if contains (tx "Station number") l1 then firstn 1 lines0 ++ tx "Station identifier: " :: skipn 1 lines0 else lines0 in
  do l1' <- py_get lines 1;
  do station <- meta_value l1';
  do l2 <- py_get lines 2;
  do v2 <- meta_value l2;
  do number <- py_int v2;
  do l3 <- py_get lines 3;
  do v3 <- meta_value l3;
  do time <- strptime v3;
  do l4 <- py_get lines 4;
  do v4 <- meta_value l4;
  do lat <- py_float v4;
  do l5 <- py_get lines 5;
  do v5 <- meta_value l5;
  do lon <- py_float v5;
  do l6 <- py_get lines 6;
  do v6 <- meta_value l6;
  do elev <- py_float v6;
  Ok (Meta station number time lat lon elev).

Example meta_example :
  wyoming_meta (map tx [""; "                         Station identifier: LIRE"; "                             Station number: 16245";
    "                           Observation time: 220622/1200"; "                           Station latitude: 41.66"; "                          Station longitude: 12.45";
    "                          Station elevation: 12.0"]%string) = Ok (Meta (tx "LIRE") 16245 (DT 2022 6 22 12 0 0) (Dec 4166 100) (Dec 1245 100) (Dec 120 10)).
Proof. vm_compute. reflexivity. Qed.
