(** Model of [get_recent_timezone_data], /repo/impactutils/time/timeutils.py lines 30-76.

    The web, the HTML parser (BeautifulSoup), [urllib.parse.urljoin], the decoding of the
    page and the zip format are oracles: [web u] is what a request for [u] gives, [anchors]
    the [href] of each anchor of a page in order (None where there is none), [unzip] the
    names and contents in the order of [namelist()], read when the archive is opened (an
    entry that can not be decompressed and one that overwrites the archive while it is read
    are left out).  shutil.Error is an OSError, and every OSError is [IOErr].  [rmtree] is
    one step; removing the root directory itself is [IOErr] and removes nothing here. *)
From Coq Require Import ZArith String Ascii Bool List.
From Verif Require Import PyBase PyStr FsModel.
Import ListNotations.

(** [s.find(p) > -1]. *)
Fixpoint contains (p s : str) : bool :=
  starts_with p s || match s with [] => false | _ :: s' => contains p s' end.
(** [s.endswith(p)]. *)
Definition ends_with (p s : str) : bool := starts_with (rev p) (rev s).

(** [os.path.normpath] (POSIX). *)
Definition slashes (s : str) : str :=
  match s with
  | a :: b :: c :: _ => if Ascii.eqb a sl then (if Ascii.eqb b sl && negb (Ascii.eqb c sl) then [sl; sl] else [sl]) else []
  | [a; b] => if Ascii.eqb a sl then (if Ascii.eqb b sl then [sl; sl] else [sl]) else []
  | [a] => if Ascii.eqb a sl then [sl] else []
  | [] => []
  end.
Fixpoint norm_comps (rooted : bool) (acc : list str) (comps : list str) : list str :=  (* acc: reversed *)
  match comps with
  | [] => rev acc
  | x :: r =>
      if str_eqb x [] || str_eqb x (str_of ".") then norm_comps rooted acc r
      else if negb (str_eqb x (str_of "..")) then norm_comps rooted (x :: acc) r
      else match acc with
           | [] => if rooted then norm_comps rooted [] r else norm_comps rooted [x] r
           | y :: acc' => if str_eqb y (str_of "..") then norm_comps rooted (x :: acc) r else norm_comps rooted acc' r
           end
  end.
Definition normpath (s : str) : str :=
  match slashes s ++ join [sl] (norm_comps (starts_sl s) [] (split_sl s)) with
  | [] => str_of "."
  | r => r
  end.

Section Tz.
Variable cwd : path.
Variable web : str -> res str.
Variable decode : str -> res str.
Variable anchors : str -> list (option str).
Variable urljoin : str -> str -> str.
Variable unzip : str -> res (list (str * str)).

(** timeutils.py lines 42-49: the link. *)
Fixpoint pick_link (l : list (option str)) (link : option str) : option str :=
  match l with
  | [] => link
  | None :: r => pick_link r link
  | Some h :: r =>
      if contains (str_of "timezones.shapefile.zip") h then Some (urljoin (str_of "https://github.com") h)
      else pick_link r (Some h)
  end.

(** zipfile.ZipFile.extract(fpath, path=outdir) of Python's library (_extract_member):
    empty, "." and ".." parts of the name are dropped; missing folders are made; a name
    ending in a slash is a folder.  Gives the path written. *)
Definition zip_target (outdir fpath : str) : str :=
  normpath (os_join outdir (join [sl] (filter (fun x => negb (str_eqb x [] || str_eqb x (str_of ".") || str_eqb x (str_of ".."))) (split_sl fpath)))).
Definition extract (outdir fpath content : str) : act str :=
  let target := zip_target outdir fpath in
  let upper := fst (os_split target) in
  (match upper with
   | [] => aret tt
   | _ => fun t => match find t (resolve cwd upper) with Some _ => aret tt t | None => makedirs [] (resolve cwd upper) t end
   end) ;;;
  (if ends_sl fpath then
     fun t => if is_dir (resolve cwd target) t then aret tt t
              else change (fun t => match find t (resolve cwd target) with Some _ => None | None => place t (resolve cwd target) (Dir []) end) IOErr t
   else open_write (resolve cwd target) ;;; append_file (resolve cwd target) content) ;;;
  aret target.
(** getinfo: of two entries of the same name the later one. *)
Definition content_of (l : list (str * str)) (fpath : str) : str := match aget fpath (rev l) with Some c => c | None => [] end.

(** os.rename of a file or a folder to a place where there is no folder. *)
Definition rename_any (src dst : path) : act unit :=
  change (fun t => match find t src, find t dst with
                   | Some (File c), (None | Some (File _)) => match unlink t src with Some t1 => place t1 dst (File c) | None => None end
                   | Some (Dir es), None => match unlink t src with Some t1 => place t1 dst (Dir es) | None => None end
                   | _, _ => None
                   end) IOErr.
(** shutil.move: into a folder if the destination is one (an error if the name is taken
    there); a path moved to itself stays. *)
Definition move (src dst : str) : act unit :=
  fun t =>
    if is_dir (resolve cwd dst) t then
      if list_eq_dec (list_eq_dec ascii_dec) (resolve cwd src) (resolve cwd dst) then aret tt t
      else
        let real_dst := os_join dst (snd (os_split (rstrip_sl src))) in
        match find t (resolve cwd real_dst) with
        | Some _ => ([], Err IOErr, t)
        | None => rename_any (resolve cwd src) (resolve cwd real_dst) t
        end
    else if list_eq_dec (list_eq_dec ascii_dec) (resolve cwd src) (resolve cwd dst) then aret tt t
    else rename_any (resolve cwd src) (resolve cwd dst) t.

(** timeutils.py lines 61-71: the loop over the archive; gives [fbase] (unbound at first)
    and [shpfile]. *)
Fixpoint unpack (outdir : str) (all l : list (str * str)) (fbase shpfile : option str) : act (option str * option str) :=
  match l with
  | [] => aret (fbase, shpfile)
  | (fpath, _) :: r =>
      let fname := snd (os_split fpath) in
      let outfile := os_join outdir fname in
      actual <- extract outdir fpath (content_of all fpath) ;;
      (if str_eqb actual outfile then aret tt else move actual outfile) ;;;
      unpack outdir all r (Some (fst (os_split fpath)))
             (if ends_with (str_of ".shp") fname then Some outfile else shpfile)
  end.

(** shutil.rmtree. *)
Definition rmtree (p : path) : act unit := change (fun t => unlink t p) IOErr.

Definition release_url : str := str_of "https://github.com/evansiroky/timezone-boundary-builder/releases/latest".
Definition zip_name : str := str_of "timezones.shapefile.zip".

(** An oracle's answer inside the file system's actions. *)
Definition lift {A} (r : res A) : act A := match r with Ok a => aret a | Err e => araise e end.

(** timeutils.py lines 38-76; the name of the shapefile or None. *)
Definition get_recent_timezone_data (outdir : str) : act (option str) :=
  page <- lift (bind (web release_url) decode) ;;
  match pick_link (anchors page) None with
  | None => araise Generic
  | Some link =>
      data <- lift (web link) ;;
      let outfile := resolve cwd (os_join outdir zip_name) in
      open_write outfile ;;; append_file outfile data ;;;
      names <- lift (unzip data) ;;
      fb_shp <- unpack outdir names names None None ;;
      match fst fb_shp with
      | None => araise Unbound
      | Some fbase =>
          let tmpdir := resolve cwd (os_join outdir fbase) in
          (fun t => if is_dir tmpdir t then rmtree tmpdir t else aret tt t) ;;;
          aret (snd fb_shp)
      end
  end.
End Tz.
