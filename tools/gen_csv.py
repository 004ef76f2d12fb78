#!/usr/bin/env python3
"""Embeds /repo/pypbomb/lookup_data/*.csv verbatim as Coq strings."""
import os
src = "/repo/pypbomb/lookup_data"
out = "/verif/rocq/theories/CsvData.v"
names = [
 ("csv_internal_thread", "ANSI_inch_internal_thread.csv"),
 ("csv_external_thread", "ANSI_inch_external_thread.csv"),
 ("csv_flange_2_1", "ASME_B16_5_flange_ratings_group_2_1.csv"),
 ("csv_flange_2_2", "ASME_B16_5_flange_ratings_group_2_2.csv"),
 ("csv_flange_2_3", "ASME_B16_5_flange_ratings_group_2_3.csv"),
 ("csv_stress_seamless", "ASME_B31_1_stress_limits_seamless.csv"),
 ("csv_stress_welded", "ASME_B31_1_stress_limits_welded.csv"),
 ("csv_materials", "materials_list.csv"),
 ("csv_pipe_schedules", "pipe_schedules.csv"),
]
assert sorted(n for _, n in names) == sorted(os.listdir(src))
with open(out, "w") as f:
    f.write("(** * CsvData: the files of /repo/pypbomb/lookup_data, verbatim.\n\n"
            "    Generated by /verif/tools/gen_csv.py; each string is the whole file. *)\n"
            "From Coq Require Import String.\nOpen Scope string_scope.\n")
    for var, name in names:
        t = open(os.path.join(src, name), newline="").read()
        assert "\r" not in t and '"' not in t and all(ord(c) < 128 for c in t)
        f.write('\n(** /repo/pypbomb/lookup_data/%s *)\nDefinition %s : string := "%s".\n' % (name, var, t))
