(** * Model of the scripts (vistautils/scripts) *)
From Verif Require Import Prelude PyStr SortLib TextLib Utf8 Io KeyValue.

Section Scripts.
(** File names in zip stores: the scripts use the default, the key itself. *)
Definition same_name (k : str) : str := k.
(** The order in which Python iterates over the set of keys when a sink is closed. *)
Variable set_order : list str -> list str.
Notation put := (put same_name).
Notation sink_exit := (sink_exit set_order).

(** "with sink: for ...: sink.put(...)": the puts stop at the first exception, of a put or of what computes the next pair; __exit__ is
    called in any case.  The result is the file and the exception that comes out: that of the loop, or else of __exit__ (if
    both fail, Python reports the latter, chained). *)
Fixpoint put_until (d : disk) (s : sink) (ops : list (str * value)) : disk * sink * option exn :=
  match ops with
  | [] => (d, s, None)
  | (k, v) :: r => let '(d1, s1, o) := put d s k v in
                   match o with Raise e => (d1, s1, Some e) | Ok _ => put_until d1 s1 r end
  end.
(** "for (k, v) in items: sink.put(k, v)" inside "with sink:", up to the first exception (downsample_key_value_store.py:33-46, join_key_value_stores.py:23-35) *)
Definition write_stream (d : disk) (st : stream value) : disk * option exn :=
  let '(d1, s1, e) := sink_enter true d new_sink in
  match e with
  | Raise x => (d1, Some x)
  | Ok _ => let '(d2, s2, e2) := put_until d1 s1 (fst st) in
            let '(d3, _, e3) := sink_exit d2 s2 in
            (d3, match e3 with Raise x => Some x | Ok _ => match e2 with Some x => Some x | None => snd st end end)
  end.

(** ** downsample_key_value_store.py:33-46.  [shuffle] is random.shuffle with the given seed. *)
Definition downsample (shuffle : list str -> list str) (num_to_sample : nat) (src : source bytes) (d : disk) : disk * option exn :=
  match src_keys src with
  | Raise e => (d, Some e)
  | Ok None => (d, Some TypeError)
  | Ok (Some keys) =>
      let num := Nat.min num_to_sample (length keys) in
      write_stream d (yield_all (fun k => let* b := src_item src k in Ok (Some (k, VBytes b))) (firstn num (shuffle keys)))
  end.

(** ** join_key_value_stores.py:23-35 *)
(** The loop over the keys of one input: pairs yielded, keys written so far, exception *)
Fixpoint join_keys (src : source bytes) (written ks : list str) : list (str * value) * list str * option exn :=
  match ks with
  | [] => ([], written, None)
  | k :: r => if existsb (str_eqb k) written then ([], written, Some RuntimeError)
              else match src_item src k with
                   | Raise e => ([], written, Some e)
                   | Ok b => let '(ys, w, e) := join_keys src (k :: written) r in ((k, VBytes b) :: ys, w, e)
                   end
  end.
(** join_key_value_stores.py:25-35 *)
Fixpoint join_inputs (written : list str) (inputs : list disk) : stream value :=
  match inputs with
  | [] => ([], None)
  | d :: r => match source_enter d with
              | Raise e => ([], Some e)
              | Ok z => let src := zip_source same_name bytes_value z in
                        match src_keys src with
                        | Raise e => ([], Some e)
                        | Ok None => ([], Some TypeError)
                        | Ok (Some ks) => let '(ys, w, e) := join_keys src written ks in
                                          match e with
                                          | Some x => (ys, Some x)
                                          | None => let '(zs, e') := join_inputs w r in (ys ++ zs, e')
                                          end
                        end
              end
  end.
(** The output as a zip store. *)
Definition join_stores (inputs : list disk) (d : disk) : disk * option exn := write_stream d (join_inputs [] inputs).

(** ** split_key_value_store.py:64-84: [reorder] is sorted, followed by random.shuffle if a seed is given.  Slice j is written to
    <output_dir>/j.zip; all sinks are entered first, and all are closed in the end. *)
Definition slices := nat -> disk * sink.
(** assignment to one of the sinks *)
Definition upd (st : slices) (j : nat) (x : disk * sink) : slices := fun i => if (i =? j)%nat then x else st i.
(** split_key_value_store.py:83-84 *)
Fixpoint split_loop (src : source bytes) (n i : nat) (keys : list str) (st : slices) : slices * option exn :=
  match keys with
  | [] => (st, None)
  | k :: r => match src_item src k with
              | Raise e => (st, Some e)
              | Ok b => let j := Nat.modulo i n in
                        let '(d1, s1, o) := put (fst (st j)) (snd (st j)) k (VBytes b) in
                        match o with Raise e => (upd st j (d1, s1), Some e) | Ok _ => split_loop src n (S i) r (upd st j (d1, s1)) end
              end
  end.
(** split_key_value_store.py:64-84 *)
Definition split_even (reorder : list str -> list str) (n : nat) (src : source bytes) (ds : nat -> disk) : (nat -> disk) * option exn :=
  let st0 : slices := fun j => fst (sink_enter true (ds j) new_sink) in
  let '(st, e) := match src_keys src with
                  | Raise e => (st0, Some e)
                  | Ok None => (st0, Some TypeError)
                  | Ok (Some keys) => split_loop src n 0 (reorder keys) st0
                  end in
  ((fun j => if (j <? n)%nat then fst (fst (sink_exit (fst (st j)) (snd (st j)))) else ds j),
   match e with Some x => Some x | None => fold_left (fun acc j => match acc with Some x => Some x | None => match snd (sink_exit (fst (st j)) (snd (st j))) with Raise x => Some x | Ok _ => None end end) (seq 0 n) None end).

(** ** split_key_value_store.py:87-126: each split is a list of keys (the distinct non-blank lines of its keys_file) and an output file *)
Fixpoint explicit_keys (src : source bytes) (ks : list str) : stream value :=
  match ks with
  | [] => ([], None)
  | k :: r => match src_get src k with
              | Raise e => ([], Some e)
              | Ok None => ([], Some RuntimeError)
              | Ok (Some b) => let '(ys, e) := explicit_keys src r in ((k, VBytes b) :: ys, e)
              end
  end.
(** split_key_value_store.py:94-115 *)
Fixpoint explicit_loop (src : source bytes) (splits : list (list str * disk)) (copied : list str) : list disk * list str * option exn :=
  match splits with
  | [] => ([], copied, None)
  | (ks, d) :: r => let st := explicit_keys src ks in
                    let '(d', e) := write_stream d st in
                    match e with
                    | Some x => (d' :: map snd r, copied, Some x)
                    | None => let '(ds, c, e') := explicit_loop src r (copied ++ map fst (fst st)) in (d' :: ds, c, e')
                    end
  end.
(** split_key_value_store.py:87-126 *)
Definition explicit_split (must_be_exhaustive : bool) (src : source bytes) (splits : list (list str * disk)) : list disk * option exn :=
  let '(ds, copied, e) := explicit_loop src splits [] in
  match e with
  | Some x => (ds, Some x)
  | None =>
      if must_be_exhaustive then
        match src_keys src with
        | Raise x => (ds, Some x)
        | Ok None => (ds, Some TypeError)
        | Ok (Some keys) => (ds, if forallb (fun k => existsb (str_eqb k) copied) keys then None else Some RuntimeError)
        end
      else (ds, None)
  end.

(** ** directory_to_key_value_store.py:33-66.  A directory tree (regular files and directories only), and the files that rglob("*") finds in it:
    name (Path.name, the last component) and contents. *)
Inductive node := FileNode (b : bytes) | DirNode (es : list (str * node)).
(** directory_to_key_value_store.py:37-38 *)
Fixpoint files_below (t : node) : list (str * bytes) :=
  match t with
  | FileNode _ => []
  | DirNode es => flat_map (fun e => match e with (n, FileNode b) => [(n, b)] | (_, d) => files_below d end) es
  end.
(** the character before an extension *)
Definition DOT : N := 46%N.
(** position of the last dot: Path.stem *)
Fixpoint last_dot (s : str) : option nat :=
  match s with
  | [] => None
  | c :: r => match last_dot r with Some i => Some (S i) | None => if (c =? DOT)%N then Some O else None end
  end.
(** Path.stem (directory_to_key_value_store.py:65-66) *)
Definition stem (name : str) : str :=
  match last_dot name with
  | Some i => if ((0 <? i) && (i <? length name - 1))%nat then firstn i name else name
  | None => name
  end.
(** [glob_order]: the order in which rglob finds the files *)
Definition directory_to_store (glob_order : list (str * bytes) -> list (str * bytes)) (strip : bool) (t : node) (d : disk) : disk * option exn :=
  write_stream d (map (fun f => ((if strip then stem (fst f) else fst f), VBytes (snd f))) (glob_order (files_below t)), None).

(** ** tar_gz_to_zip.py:45-84, streaming; [cutoff]: --omit-large-files with the size above which members are left out *)
Definition tar_to_zip (cutoff : option N) (ms : list member) : archive * option exn :=
  (fix loop (ms : list member) (a : archive) : archive * option exn :=
    match ms with
    | [] => (a, None)
    | m :: r =>
        match m_isfile m, m_data m with
        | true, Some b =>
            if match cutoff with Some c => (c <? N.of_nat (length b))%N | None => false end then loop r a
            else match writestr a (m_name m) b with Ok a' => loop r a' | Raise e => (a, Some e) end
        | true, None => (a, Some AttributeError)
        | false, _ => loop r a
        end
    end) ms [].
(** tar_gz_to_zip.py:87-94 *)
Definition ends_with (s suffix : str) : bool := str_eqb (skipn (length s - length suffix) s) suffix.
(** tar_gz_to_zip.py:87-94 *)
Definition output_name (filename : str) : str :=
  let cut ext := firstn (length filename - length ext) filename in
  (if ends_with filename !!".tar" then cut !!".tar"
   else if ends_with filename !!".tgz" then cut !!".tgz"
   else if ends_with filename !!"tar.gz" then cut !!"tar.gz"
   else filename) ++ !!".zip".

(** ** text_at_offsets.py:15-42: what is printed *)
Inductive printed := StartOutOfBounds | EndOutOfBounds | Text (s : str).
(** text_at_offsets.py:15-42 *)
Definition text_at_offsets (text : str) (start stop : Z) : list printed :=
  let n := Z.of_nat (length text) in
  (if ((start <? 0) || (n <=? start))%Z then [StartOutOfBounds] else []) ++
  (if ((stop <=? start) || (n <? stop))%Z then [EndOutOfBounds] else []) ++
  [Text (py_slice text start stop)].
End Scripts.
