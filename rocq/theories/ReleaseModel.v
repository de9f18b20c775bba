(** Model of the commands that put the version into distributions, /repo/versioneer.py:1483-1652
    (sdist, build_py and version of get_cmdclass).  What the commands of distutils copy is a
    parameter: [copied] gives the files of the new tree.  cx_Freeze and py2exe are left out. *)
From Coq Require Import ZArith String Ascii Bool List.
From Verif Require Import PyBase PyStr PolyModel VersionModel PackModel.
Import ListNotations.

(** The dictionary as a record; one with other keys is NotModelled. *)
Definition text_item (k : string) (d : jdict) : option (option str) := match item (str_of k) d with Ok (JText s) => Some (Some s) | Ok JNone => Some None | _ => None end.
Definition truth_item (k : string) (d : jdict) : option (option bool) := match item (str_of k) d with Ok (JTruth b) => Some (Some b) | Ok JNone => Some None | _ => None end.
Definition of_dict (d : jdict) : option versions :=
  match length d, text_item "version" d, text_item "full-revisionid" d, truth_item "dirty" d, text_item "error" d, text_item "date" d with
  | 5%nat, Some (Some v), Some f, Some b, Some e, Some t => Some (mkversions v f b e t)
  | _, _, _, _, _, _ => None
  end.
(** A tree of files; versioneer.py:1206-1214  write_to_version_file in it *)
Definition tree := str -> option str.
Definition put (p t : str) (fs : tree) : tree := fun q => if str_eqb q p then Some t else fs q.
Definition update (target : str) (d : jdict) (fs : tree) : res tree :=
  match of_dict d with
  | None => Err NotModelled
  | Some v => bind (write_to_version_file (fs target) v) (fun o => Ok (match o with Some t => put target t fs | None => fs end))
  end.
Section Commands.
Variable popen : str -> str -> list str -> launch.
Variable iparse : str -> option Z.
Variable content : tree.               (* the tree of the project *)
Variable copied : tree.                (* the tree made by the command of distutils *)
(** versioneer.py:1627-1648  cmd_sdist: run and make_release_tree; the version in the name of the archive, and the new tree *)
Definition sdist (cfg : config) (root base_dir : str) : res (jval * tree) :=
  bind (get_versions popen iparse content cfg root) (fun d =>
  bind (item (str_of "version") d) (fun name =>
  match c_source cfg with
  | None => Err AttributeError
  | Some source => bind (update (os_join base_dir source) d copied) (fun fs => Ok (name, fs))
  end)).
(** versioneer.py:1549-1560  cmd_build_py.run; [build]: versionfile_build of the configuration *)
Definition build_py (cfg : config) (build : option str) (root build_lib : str) : res tree :=
  bind (get_versions popen iparse content cfg root) (fun d =>
  match build with
  | Some ((_ :: _) as f) => update (os_join build_lib f) d copied
  | _ => Ok copied
  end).
(** versioneer.py:1516-1523  cmd_version.run: the values printed, the last only if there is an error *)
Definition shown_version (cfg : config) (root : str) : res (list (str * jval)) :=
  let get k d := match item (str_of k) d with Ok v => v | Err _ => JNone end in
  bind (get_versions popen iparse content cfg root) (fun d =>
  bind (item (str_of "version") d) (fun v =>
  bind (item (str_of "error") d) (fun e =>
  Ok ([(str_of "Version", v); (str_of "full-revisionid", get "full-revisionid"%string d); (str_of "dirty", get "dirty"%string d); (str_of "date", get "date"%string d)]
      ++ match e with JText (_ :: _) | JTruth true => [(str_of "error", e)] | _ => [] end)))).
End Commands.
