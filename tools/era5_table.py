"""Prints theories/Era5Table.v from the CSV in /repo."""
import csv
rows = list(csv.reader(open('/repo/src/wam2layers/preprocessing/tableERA5model_to_pressure.csv', encoding='utf-8-sig')))
f = lambda s: int(s.replace('.', ''))
ent = [(f(r[1]), f(r[2])) for r in rows[1:]]
print("""(** * The ERA5 model level coefficients
    preprocessing/tableERA5model_to_pressure.csv, columns [a [Pa]] and [b] of the rows n = 0 to
    137, times 10^6 (all entries have six decimals).  Generated by tools/era5_table.py. *)
From Coq Require Import ZArith List.
Import ListNotations.
Local Open Scope Z_scope.

Definition era5_table : list (Z * Z) := [""")
print(";\n".join("  " + "; ".join("(%d, %d)" % e for e in ent[i:i + 6]) for i in range(0, 138, 6)) + "].")
