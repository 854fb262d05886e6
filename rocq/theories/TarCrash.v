(** * The states scripts/tar_gz_to_zip.py can leave behind when its process dies

    TarMain.v gives the state at the end.  Here are the states on the way; a process that is killed leaves one of them.  As in DirCrash.v and ScriptCrash.v everything the
    system calls did is kept (the machine itself does not crash).  There are more states here than can occur, which only makes statements about all of them stronger.
    The simplifications are those of TarMain.v. *)
From Verif Require Import Prelude PyStr Params Fs Io KeyValue Scripts Mains ScriptCrash TarMain.

Section TarCrash.
Notation fsys := (list (list str * fnode)) (only parsing).
Notation rpath := (list str) (only parsing).
(** as in TarMain.v *)
Variable cwd : list str.
Variable ZC : zip_codec.
Variable torn : bytes.
Variable untar : bytes -> res (list (str * kind) * option exn).
(** what can be in the zip file between its opening and its closing (tar_gz_to_zip.py:64-84) *)
Variable unfinished : bytes -> Prop.

(** TarFile.extract of one member (tar_gz_to_zip.py:67): before and after each directory made, with the file opened (and so emptied) and a beginning of it written, and at the end *)
Inductive extract_moment (fs : fsys) (m : str * kind) (st : fsys) : Prop :=
| ex_before : st = fs -> extract_moment fs m st
| ex_dirs q : resolve cwd (fst m) = Ok q -> exists_ fs (tl q) = false -> In st (mkdir_moments fs (tl q)) -> extract_moment fs m st
| ex_writing q fs1 written rest : resolve cwd (fst m) = Ok q -> (if exists_ fs (tl q) then (fs, Ok tt) else mkdir_p fs (tl q)) = (fs1, Ok tt) -> can_write fs1 q = Ok tt ->
    snd m = TFile (written ++ rest) -> st = set_node fs1 q written -> extract_moment fs m st
| ex_end : st = fst (extract cwd fs m) -> extract_moment fs m st.
(** TarFile.extractall (tar_gz_to_zip.py:67): one member after the other *)
Inductive unpack_moment : fsys -> list (str * kind) -> fsys -> Prop :=
| un_done fs : unpack_moment fs [] fs
| un_now fs m ms st : extract_moment fs m st -> unpack_moment fs (m :: ms) st
| un_later fs m ms fs1 st : extract cwd fs m = (fs1, None) -> unpack_moment fs1 ms st -> unpack_moment fs (m :: ms) st.
(** the loop of tar_gz_to_zip.py:68-72: some of the members have been removed *)
Inductive pack_moment : fsys -> list (str * kind) -> fsys -> Prop :=
| pk_now fs ms : pack_moment fs ms fs
| pk_later fs m ms q fs1 st : resolve cwd (fst m) = Ok q -> os_remove fs q = (fs1, None) -> pack_moment fs1 ms st -> pack_moment fs (m :: ms) st.
(** tar_gz_to_zip.py:45-84 *)
Inductive tar_moment (tar_file : str) (dont_stream : bool) (cutoff : option N) (fs st : fsys) : Prop :=
| tm_before : st = fs -> tar_moment tar_file dont_stream cutoff fs st
| tm_removed q : resolve cwd (output_name tar_file) = Ok q -> exists_ fs q = true -> os_remove fs q = (st, None) -> tar_moment tar_file dont_stream cutoff fs st
| tm_filling q fs1 b : resolve cwd (output_name tar_file) = Ok q -> (if exists_ fs q then os_remove fs q else (fs, None)) = (fs1, None) -> can_create fs1 q = Ok tt ->
    unfinished b -> st = set_node fs1 q b -> tar_moment tar_file dont_stream cutoff fs st
| tm_unpacking q fs1 b ms damage : dont_stream = true -> resolve cwd (output_name tar_file) = Ok q -> (if exists_ fs q then os_remove fs q else (fs, None)) = (fs1, None) -> can_create fs1 q = Ok tt ->
    unfinished b -> open_tar cwd untar (set_node fs1 q b) tar_file = Ok (ms, damage) -> unpack_moment (set_node fs1 q b) ms st -> tar_moment tar_file dont_stream cutoff fs st
| tm_packing q fs1 b ms fs3 st3 b' : dont_stream = true -> resolve cwd (output_name tar_file) = Ok q -> (if exists_ fs q then os_remove fs q else (fs, None)) = (fs1, None) -> can_create fs1 q = Ok tt ->
    unfinished b -> open_tar cwd untar (set_node fs1 q b) tar_file = Ok (ms, None) -> extract_all cwd (set_node fs1 q b) ms = (fs3, None) -> pack_moment fs3 ms st3 ->
    unfinished b' -> st = set_node st3 q b' -> tar_moment tar_file dont_stream cutoff fs st
| tm_end : st = fst (tar_main cwd ZC torn untar tar_file dont_stream cutoff fs) -> tar_moment tar_file dont_stream cutoff fs st.
End TarCrash.
