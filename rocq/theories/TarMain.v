(** * Model of scripts/tar_gz_to_zip.py, from the command line and the file system to the file system

    Simplifications: paths are resolved by their text (Fs.v), so "a/../b" needs no directory a; links inside the archive, owners, modes and times are not modelled (a
    file from before 1980 makes ZipFile.write raise ValueError); extraction is that of Python versions without extraction filters (a directory member where something else exists is skipped; recent versions raise FileExistsError; no theorem concerns the case); names of members do not end in "/."; a member that is unpacked
    over the output or over the archive itself is not modelled faithfully; printing is left out. *)
From Verif Require Import Prelude PyStr Utf8 TextLib Params Fs Io KeyValue Scripts Mains.

Section TarMain.
Notation fsys := (list (list str * fnode)) (only parsing).
Notation rpath := (list str) (only parsing).
Variable cwd : list str.
Variable ZC : zip_codec.
(** what the zip file looks like while it is written *)
Variable torn : bytes.
(** members of a tar file: regular files, directories, devices and the like (tarfile.TarInfo, tar_gz_to_zip.py:66-84) *)
Inductive kind := TFile (b : bytes) | TDir | TOther.
(** the members of a tar file (compressed or not), and the error that follows if the rest of the file is damaged; or the error of tarfile.open *)
Variable untar : bytes -> res (list (str * kind) * option exn).

(** os.remove (tar_gz_to_zip.py:62, 72) *)
Definition os_remove (fs : fsys) (q : rpath) : fsys * option exn :=
  match look fs q with
  | None => (fs, Some FileNotFoundError)
  | Some KDir => (fs, Some IOError)
  | Some _ => (filter (fun e => negb (rpath_eqb (fst e) q)) fs, None)
  end.
(** open(q, "xb") by ZipFile(q, "x") (tar_gz_to_zip.py:64) *)
Definition can_create (fs : fsys) (q : rpath) : res unit :=
  match q with
  | [] => Raise FileExistsError
  | _ :: d => let* _ := search fs d in match look fs q with None => Ok tt | Some _ => Raise FileExistsError end
  end.
(** tarfile.open (tar_gz_to_zip.py:65) *)
Definition open_tar (fs : fsys) (name : str) : res (list (str * kind) * option exn) :=
  if is_nil name then Raise ValueError
  else let* t := resolve cwd name in
       match look fs t with Some (KFile b) => untar b | None => Raise FileNotFoundError | Some _ => Raise IOError end.

(** TarFile.extract of one member (tar_gz_to_zip.py:67): the directories above are made; os.mkdir's FileExistsError is ignored *)
Definition extract (fs : fsys) (m : str * kind) : fsys * option exn :=
  match resolve cwd (fst m) with
  | Raise e => (fs, Some e)
  | Ok q =>
      match (if exists_ fs (tl q) then (fs, Ok tt) else mkdir_p fs (tl q)) with
      | (fs1, Raise e) => (fs1, Some e)
      | (fs1, Ok _) =>
          match snd m with
          | TFile b => match can_write fs1 q with Raise e => (fs1, Some e) | Ok _ => (set_node fs1 q b, None) end
          | TDir => match os_mkdir fs1 q with Ok fs2 => (fs2, None) | Raise FileExistsError => (fs1, None) | Raise e => (fs1, Some e) end
          | TOther => match can_create fs1 q with Raise e => (fs1, Some e) | Ok _ => ((q, KOther) :: fs1, None) end
          end
      end
  end.
(** TarFile.extractall (tar_gz_to_zip.py:67): the first error ends it *)
Fixpoint extract_all (fs : fsys) (ms : list (str * kind)) : fsys * option exn :=
  match ms with
  | [] => (fs, None)
  | m :: r => match extract fs m with (fs1, None) => extract_all fs1 r | (fs1, Some e) => (fs1, Some e) end
  end.
(** os.path.normpath and the removal of leading slashes, by ZipInfo.from_file (tar_gz_to_zip.py:71); [acc]: the parts so far, last first *)
Fixpoint norm_parts (absolute : bool) (acc : list str) (parts : list str) : list str :=
  match parts with
  | [] => rev acc
  | c :: r =>
      if str_eqb c [] || str_eqb c !!"." then norm_parts absolute acc r
      else if str_eqb c !!".." then
        match acc with
        | [] => if absolute then norm_parts absolute [] r else norm_parts absolute [c] r
        | c' :: acc' => if str_eqb c' !!".." then norm_parts absolute (c :: acc) r else norm_parts absolute acc' r
        end
      else norm_parts absolute (c :: acc) r
  end.
(** ZipInfo.from_file (tar_gz_to_zip.py:71) *)
Definition arcname (name : str) : str :=
  match norm_parts (match name with c :: _ => (c =? slash)%N | [] => false end) [] (py_split slash name) with
  | [] => !!"."
  | parts => py_join [slash] parts
  end.
(** ZipFile.write (tar_gz_to_zip.py:71) *)
Definition zip_write (fs : fsys) (a : archive) (name : str) : res archive :=
  let* q := resolve cwd name in
  match look fs q with
  | Some (KFile b) => zappend a (arcname name) b
  | None => Raise FileNotFoundError
  | Some _ => Raise IOError
  end.
(** tar_gz_to_zip.py:68-72 *)
Fixpoint pack (fs : fsys) (a : archive) (ms : list (str * kind)) : fsys * archive * option exn :=
  match ms with
  | [] => (fs, a, None)
  | m :: r =>
      match (match snd m with TFile _ => zip_write fs a (fst m) | _ => Ok a end) with
      | Raise e => (fs, a, Some e)
      | Ok a' => match (let* q := resolve cwd (fst m) in Ok (os_remove fs q)) with
                 | Raise e => (fs, a', Some e)
                 | Ok (fs1, Some e) => (fs1, a', Some e)
                 | Ok (fs1, None) => pack fs1 a' r
                 end
      end
  end.
(** TarInfo.isfile and extractfile (tar_gz_to_zip.py:75-84) *)
Definition as_member (m : str * kind) : member :=
  {| m_name := fst m; m_isfile := match snd m with TFile _ => true | _ => false end; m_data := match snd m with TFile b => Some b | _ => None end |}.
(** tar_gz_to_zip.py:45-84; [cutoff]: with --omit-large-files, the size above which members are left out.  Whatever happens once the zip file is open, it is completed when it is closed. *)
Definition tar_main (tar_file : str) (dont_stream : bool) (cutoff : option N) (fs : fsys) : fsys * option exn :=
  match resolve cwd (output_name tar_file) with
  | Raise e => (fs, Some e)
  | Ok q =>
      match (if exists_ fs q then os_remove fs q else (fs, None)) with
      | (fs1, Some e) => (fs1, Some e)
      | (fs1, None) =>
          match can_create fs1 q with
          | Raise e => (fs1, Some e)
          | Ok _ =>
              let fs2 := set_node fs1 q torn in
              let close f a := set_node f q (dozip ZC [] a) in
              match open_tar fs2 tar_file with
              | Raise e => (close fs2 [], Some e)
              | Ok (ms, damage) =>
                  if dont_stream then
                    match extract_all fs2 ms with
                    | (fs3, Some e) => (close fs3 [], Some e)
                    | (fs3, None) => match damage with
                                     | Some e => (close fs3 [], Some e)
                                     | None => let '(fs4, a, e) := pack fs3 [] ms in (close fs4 a, e)
                                     end
                    end
                  else
                    match tar_to_zip cutoff (map as_member ms) with
                    | (a, Some e) => (close fs2 a, Some e)
                    | (a, None) => (close fs2 a, damage)
                    end
              end
          end
      end
  end.
End TarMain.
