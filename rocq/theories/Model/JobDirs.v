(** The directories of the configured jobs and what their processes are told:
    daemon/__init__.py:70-147, 225-235, daemon/scheduler.py:51-67,
    repository.py:70-85, source.py:194-212, 246-375, rbd/__init__.py:95-100,
    374-399, file/__init__.py:44-53.

    Simplifications: no symbolic links; of the file system there are only the
    directories and the "config" file in each of them; a job's process runs
    [backy-rbd] or [backy-file] (S3 is a stub in the repository). *)
From Verif Require Export Model.Api.

(** ** Paths (pathlib.PurePosixPath) *)
(** [str.split("/")]. *)
Fixpoint split_slash (s : string) : list string :=
  match s with
  | EmptyString => [""]
  | String a s =>
      match split_slash s with
      | [] => []
      | w :: ws => if Ascii.eqb a "/" then "" :: w :: ws else String a w :: ws
      end
  end.
(** Empty components and "." are dropped when a path is parsed, ".." is not. *)
Definition real_part (w : string) : bool := negb (bool_decide (w = "")) && negb (bool_decide (w = ".")).
Definition parts_of (s : string) : list string := List.filter real_part (split_slash s).
Definition is_abs (s : string) : bool := String.prefix "/" s.
(** [Path.resolve] (repository.py:76) without symbolic links: ".." leads to the
    directory above, and from the root to the root. *)
Definition walk (from : list string) (parts : list string) : list string :=
  fold_left (fun at_ w => if bool_decide (w = "..") then List.removelast at_ else at_ ++ [w]) parts from.
(** The place a text denotes, seen from the directory [cwd] (also [base / name]:
    an absolute right-hand side stands for itself). *)
Definition place (cwd : list string) (s : string) : list string :=
  walk (if is_abs s then [] else cwd) (parts_of s).
(** [str] of an absolute path. *)
Fixpoint joined_slash (l : list string) : string :=
  match l with [] => "" | [w] => w | w :: l => w +:+ String "/" (joined_slash l) end.
Definition path_text (l : list string) : string := String "/" (joined_slash l).

(** ** Configuration *)
(** A YAML value, as far as it matters; keys of a mapping need not be texts. *)
Inductive yval := YText (s : string) | YBool (b : bool) | YNumber (z : Z) | YNull.
Global Instance yval_eq_dec : EqDecision yval.
Proof. solve_decision. Defined.
Notation ymap := (gmap string yval).
(** A section of "jobs". *)
Record section := MkSection { se_schedule : string; se_source : ymap }.
Global Instance section_eq_dec : EqDecision section.
Proof. solve_decision. Defined.
(** The "config" file in a job's directory (source.py:306-311). *)
Record jfile := MkJfile { jf_path : string; jf_source : ymap; jf_schedule : string }.

(** ** What a process works on *)
(** rbd/__init__.py:374-399, file/__init__.py:44-53. *)
Inductive origin :=
| ORbd (pool image : yval) (vm token : option yval) (full : yval)
| OFile (name : yval).
Definition need (k : string) (c : ymap) : res yval :=
  match c !! k with Some v => Ok v | None => Err KeyError end.
(** source.py:327-347 [create_source] with the class of the executable
    (source.py:194-195, 212): each of them checks the type first. *)
Definition create_source (exe : string) (c : ymap) : res origin :=
  if bool_decide (exe = "backy-rbd") then
    res_bind (need "type" c) (fun t =>
    if bool_decide (t = YText "rbd") then
      res_bind (need "pool" c) (fun pool =>
      res_bind (need "image" c) (fun image =>
      Ok (ORbd pool image (c !! "vm") (c !! "consul_acl_token")
            (default (YBool false) (c !! "full-always")))))
    else Err AssertionError)
  else if bool_decide (exe = "backy-file") then
    res_bind (need "type" c) (fun t =>
    if bool_decide (t = YText "file") then
      res_bind (need "filename" c) (fun f => Ok (OFile f))
    else Err AssertionError)
  else Err FileNotFound.                       (* no such program *)
(** source.py:249-251, 258-259: the program for a source. *)
Definition subcommand (c : ymap) : res string :=
  match c !! "type" with
  | Some (YText t) => Ok ("backy-" +:+ t)
  | Some _ => Err TypeError
  | None => Err KeyError
  end.

Section Dirs.
(** YAML (source.py:279, 322), and what is in the schedule of that name. *)
Context (dump : jfile -> bytes) (load : bytes -> option jfile).

(** Directories and the "config" files in them. *)
Local Notation jdirs := (gmap (list string) (option bytes)).
(** Path.mkdir(exist_ok=True), without [parents]. *)
Definition mkdir (p : list string) (fs : jdirs) : res jdirs :=
  match fs !! p with
  | Some _ => Ok fs
  | None =>
      match p with
      | [] => Ok fs
      | _ => if bool_decide (is_Some (fs !! List.removelast p)) || bool_decide (List.removelast p = [])
             then Ok (<[p := None]> fs) else Err FileNotFound
      end
  end.

(** A [Job] object: its directory, [last_config], its source. *)
Record jjob := MkJjob { jj_dir : list string; jj_last : option section }.
Record jdaemon := MkJd { jd_jobs : gmap string jjob; jd_up : bool; jd_fs : jdirs }.

(** scheduler.py:60-67 [configure]: [flushed] as in [store_config]. *)
Definition configure (flushed : nat) (j : jjob) (c : section) (fs : jdirs) : jdirs * res jjob :=
  match mkdir (jj_dir j) fs with
  | Err e => (fs, Err e)
  | Ok fs =>
      let text := dump (MkJfile (path_text (jj_dir j)) (se_source c) (se_schedule c)) in
      match store_config text flushed (default None (fs !! jj_dir j)) with
      | (f, Ok _) => (<[jj_dir j := f]> fs, Ok (MkJjob (jj_dir j) (Some c)))
      | (f, Err e) => (<[jj_dir j := f]> fs, Err e)
      end
  end.
(** daemon/__init__.py:122-134: one entry of "jobs".  scheduler.py:57: only a text
    can be joined to a path. *)
Definition apply_one (base : list string) (flushed : string -> nat) (k : yval) (c : section)
    (jobs : gmap string jjob) (fs : jdirs) : gmap string jjob * jdirs * res unit :=
  match k with
  | YText n =>
      let j := match jobs !! n with Some j => j | None => MkJjob (place base n) None end in
      if bool_decide (jj_last j = Some c) then (jobs, fs, Ok tt)
      else match configure (flushed n) j c fs with
           | (fs, Ok j) => (<[n := j]> jobs, fs, Ok tt)
           | (fs, Err e) => (<[n := j]> jobs, fs, Err e)
           end
  | _ => (jobs, fs, Err TypeError)
  end.
(** daemon/__init__.py:121-134. *)
Fixpoint apply_all (base : list string) (flushed : string -> nat) (l : list (yval * section))
    (jobs : gmap string jjob) (fs : jdirs) : gmap string jjob * jdirs * res unit :=
  match l with
  | [] => (jobs, fs, Ok tt)
  | (k, c) :: l =>
      match apply_one base flushed k c jobs fs with
      | (jobs, fs, Ok _) => apply_all base flushed l jobs fs
      | x => x
      end
  end.
(** daemon/__init__.py:136-140: jobs that are configured no more are dropped.
    225-235 and the start: an error ends the daemon. *)
Definition apply_cfg (base : list string) (flushed : string -> nat) (l : list (yval * section))
    (jobs : gmap string jjob) (fs : jdirs) : jdaemon :=
  match apply_all base flushed l jobs fs with
  | (jobs, fs, Ok _) => MkJd (filter (fun x => YText x.1 ∈ map fst l) jobs) true fs
  | (jobs, fs, Err _) => MkJd jobs false fs
  end.

(** What happens: the daemon starts or reloads with "base-dir" [base] and the
    entries [l] of "jobs"; somebody deletes a directory with all that is below. *)
Inductive jdevent :=
| JdStart (base : list string) (flushed : string -> nat) (l : list (yval * section))
| JdReload (base : list string) (flushed : string -> nat) (l : list (yval * section))
| JdDelete (p : list string).
Definition jdstep (s : jdaemon) (e : jdevent) : jdaemon :=
  match e with
  | JdStart base flushed l => apply_cfg base flushed l ∅ (jd_fs s)
  | JdReload base flushed l =>
      if jd_up s then apply_cfg base flushed l (jd_jobs s) (jd_fs s) else s
  | JdDelete p => MkJd (jd_jobs s) (jd_up s) (filter (fun x => take (length p) x.1 <> p) (jd_fs s))
  end.
Definition jdrun (fs : jdirs) (l : list jdevent) : jdaemon := fold_left jdstep l (MkJd ∅ false fs).

(** A process of the job [n] (source.py:349-375): the program, the repository it
    works on (source.py:275-304: the one its file names) and its source. *)
Record jprocess := MkJp { jp_exe : string; jp_repo : list string; jp_source : origin }.
Definition process (s : jdaemon) (n : string) : res jprocess :=
  match jd_jobs s !! n with
  | None => Err KeyError
  | Some j =>
      match jj_last j with
      | None => Err KeyError
      | Some c =>
          res_bind (subcommand (se_source c)) (fun exe =>
          match default None (jd_fs s !! place [] (path_text (jj_dir j))) with   (* -C *)
          | None => Err FileNotFound
          | Some b =>
              match load b with
              | None => Err ValueError
              | Some f =>
                  res_bind (create_source exe (jf_source f)) (fun o =>
                  Ok (MkJp exe (place [] (jf_path f)) o))
              end
          end)
      end
  end.
End Dirs.
Notation jdirs := (gmap (list string) (option bytes)).
