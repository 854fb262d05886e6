## 7. Testing the theorems against wrong programs

`seeded/LOG.jsonl` records the mutation tests: each is an edit of a model definition in a scratch copy, in the way a bug would change the program (a wrong boundary, a
missed case, swapped arguments, a dropped update, another exception class). The copy is rebuilt; a proof that no longer goes through is removed and the build goes on, so the log says exactly which
theorems fail. A mutant that no theorem notices is either an equivalent program (the row says why) or a theorem was tightened (the row says which) and the mutant was run again.

## 8. Testing the model's Python

`tools/difftest` compares what the model says about Python itself (string functions, lines, UTF-8, pathlib, os.mkdir and open, shutil.rmtree, tarfile, zipfile, argparse, regular
expressions, closing of files) with CPython 3.11 on random inputs. These are tests of the model, on which no theorem depends. They found two differences, which are corrected or
noted in the model: Path.resolve(strict=True) meets a NUL character part by part (LoadFs.v), and recent versions of Python raise FileExistsError when a directory member of a tar
file is unpacked where a file exists (TarMain.v).
