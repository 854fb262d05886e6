Differential tests of what the model says about Python itself (CPython 3.11): these scripts run the functions of the standard
library - never the code of vistautils - on random nasty inputs and write a Coq file with the results; coqc evaluates the model's
functions on the same inputs and prints those where they differ.  They are tests of the model's faithfulness, not proofs; no
theorem depends on them.

  python3 text.py SEED COUNT     -> text_test.v      strings, lines, UTF-8, slices, paths, regular expressions, argparse
  python3 files.py SEED COUNT    -> files_test.v     mkdir, open, resolve, rmtree, unpacking tar files (needs root: uses chroot)
  python3 archives.py SEED COUNT -> archives_test.v  links in tar files, entries of zip files
  python3 handles.py SEED COUNT  -> handles_test.v   histories of open, read and close, with the files open after each step
  ulimit -s unlimited; coqc -Q ../../rocq/theories Verif text_test.v     (after building rocq)

Every list printed should be [] (handles: 0 mismatches).
