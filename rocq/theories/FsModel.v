(** A file system: a tree of directories and files.  No links, permissions,
    owners or times.  Every function that changes it yields the list of states
    after each primitive change, which are the states a crash can leave. *)
From Coq Require Import ZArith String Ascii Bool List Lia.
From Verif Require Import PyBase PyStr.
Import ListNotations.

Inductive fsn := File (c : str) | Dir (es : list (str * fsn)).

Fixpoint aget {A} (k : str) (l : list (str * A)) : option A :=
  match l with [] => None | (k', v) :: l' => if str_eqb k k' then Some v else aget k l' end.
Fixpoint aset {A} (k : str) (v : A) (l : list (str * A)) : list (str * A) :=
  match l with
  | [] => [(k, v)]
  | (k', v') :: l' => if str_eqb k k' then (k', v) :: l' else (k', v') :: aset k v l'
  end.
Definition adel {A} (k : str) (l : list (str * A)) : list (str * A) :=
  filter (fun kv => negb (str_eqb k (fst kv))) l.

Fixpoint find (t : fsn) (p : path) : option fsn :=
  match p with
  | [] => Some t
  | s :: p' => match t with
               | File _ => None
               | Dir es => match aget s es with Some c => find c p' | None => None end
               end
  end.

(** Place [n] at [p] (new or replacing); the parent must be a directory. *)
Fixpoint place (t : fsn) (p : path) (n : fsn) : option fsn :=
  match p with
  | [] => None
  | s :: p' =>
      match t with
      | File _ => None
      | Dir es =>
          match p' with
          | [] => Some (Dir (aset s n es))
          | _ => match aget s es with
                 | Some c => option_map (fun c' => Dir (aset s c' es)) (place c p' n)
                 | None => None
                 end
          end
      end
  end.

Fixpoint unlink (t : fsn) (p : path) : option fsn :=
  match p with
  | [] => None
  | s :: p' =>
      match t with
      | File _ => None
      | Dir es =>
          match aget s es with
          | None => None
          | Some c =>
              match p' with
              | [] => Some (Dir (adel s es))
              | _ => option_map (fun c' => Dir (aset s c' es)) (unlink c p')
              end
          end
      end
  end.

(** Actions: states after each primitive change, result, final state. *)
Definition act (A : Type) := fsn -> list fsn * res A * fsn.
Definition aret {A} (a : A) : act A := fun t => ([], Ok a, t).
Definition araise {A} (e : exn) : act A := fun t => ([], Err e, t).
Definition abind {A B} (m : act A) (f : A -> act B) : act B :=
  fun t => match m t with
           | (tr, Ok a, t1) => match f a t1 with (tr', r, t2) => (tr ++ tr', r, t2) end
           | (tr, Err e, t1) => (tr, Err e, t1)
           end.
Definition asks {A} (f : fsn -> A) : act A := fun t => ([], Ok (f t), t).
(** One primitive change, or an error ([IOErr] stands for every OSError). *)
Definition change (f : fsn -> option fsn) (e : exn) : act unit :=
  fun t => match f t with Some t' => ([t'], Ok tt, t') | None => ([], Err e, t) end.
Notation "x <- m ;; k" := (abind m (fun x => k)) (at level 61, m at next level, right associativity).
Notation "m ;;; k" := (abind m (fun _ => k)) (at level 61, right associativity).

Definition trace {A} (r : list fsn * res A * fsn) : list fsn := fst (fst r).
Definition result {A} (r : list fsn * res A * fsn) : res A := snd (fst r).
Definition final {A} (r : list fsn * res A * fsn) : fsn := snd r.

Definition is_file (p : path) (t : fsn) : bool := match find t p with Some (File _) => true | _ => false end.
Definition is_dir (p : path) (t : fsn) : bool := match find t p with Some (Dir _) => true | _ => false end.

(** os.remove *)
Definition os_remove (p : path) : act unit :=
  change (fun t => match find t p with Some (File _) => unlink t p | _ => None end) IOErr.

(** os.makedirs: every missing prefix is created in turn. *)
Fixpoint makedirs (done rest : path) : act unit :=
  match rest with
  | [] => aret tt
  | s :: r =>
      let p := done ++ [s] in
      fun t => match find t p with
               | Some (Dir _) => makedirs p r t
               | Some (File _) => ([], Err IOErr, t)
               | None => (change (fun t => place t p (Dir [])) IOErr ;;; makedirs p r) t
               end
  end.

(** open(p, 'w'): a new or truncated file. *)
Definition open_write (p : path) : act unit :=
  change (fun t => match find t p with Some (Dir _) => None | _ => place t p (File []) end) IOErr.
Definition append_file (p : path) (s : str) : act unit :=
  change (fun t => match find t p with Some (File c) => place t p (File (c ++ s)) | _ => None end) IOErr.
Fixpoint write_chunks (p : path) (l : list str) : act unit :=
  match l with [] => aret tt | s :: l' => append_file p s ;;; write_chunks p l' end.

(** shutil.copyfile(src, dst): the content is written in the given pieces. *)
Definition copyfile (chunks : str -> list str) (src dst : path) : act unit :=
  fun t => match find t src with
           | Some (File c) =>
               if list_eq_dec (list_eq_dec ascii_dec) src dst then ([], Err IOErr, t)   (* SameFileError *)
               else (open_write dst ;;; write_chunks dst (chunks c)) t
           | _ => ([], Err FileNotFoundError, t)
           end.

(** os.rename(src, dst) of a file: atomic. *)
Definition os_rename (src dst : path) : act unit :=
  change (fun t => match find t src, find t dst with
                   | Some (File c), (None | Some (File _)) =>
                       match unlink t src with Some t1 => place t1 dst (File c) | None => None end
                   | _, _ => None
                   end) IOErr.

(** os.walk: (root string, names of files) for each directory, top down; the
    order inside a directory is the tree's. *)
Fixpoint walk_files (root : str) (t : fsn) : list str :=
  match t with
  | File _ => []
  | Dir es =>
      flat_map (fun kn => match kn with (n, File _) => [os_join root n] | _ => [] end) es ++
      flat_map (fun kn => match kn with (n, c) => walk_files (os_join root n) c end) es
  end.
