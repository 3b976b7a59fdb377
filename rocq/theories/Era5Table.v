(** * The ERA5 model level coefficients
    preprocessing/tableERA5model_to_pressure.csv, columns [a [Pa]] and [b] of the rows n = 0 to
    137, times 10^6 (all entries have six decimals).  Generated by tools/era5_table.py. *)
From Coq Require Import ZArith List.
Import ListNotations.
Local Open Scope Z_scope.

Definition era5_table : list (Z * Z) := [
  (0, 0); (2000365, 0); (3102241, 0); (4666084, 0); (6827977, 0); (9746966, 0);
  (13605424, 0); (18608931, 0); (24985718, 0); (32985710, 0); (42879242, 0); (54955463, 0);
  (69520576, 0); (86895882, 0); (107415741, 0); (131425507, 0); (159279404, 0); (191338562, 0);
  (227968948, 0); (269539581, 0); (316420746, 0); (368982361, 0); (427592499, 0); (492616028, 0);
  (564413452, 0); (643339905, 0); (729744141, 0); (823967834, 0); (926344910, 0); (1037201172, 0);
  (1156853638, 0); (1285610352, 0); (1423770142, 0); (1571622925, 0); (1729448975, 0); (1897519287, 0);
  (2076095947, 0); (2265431641, 0); (2465770508, 0); (2677348145, 0); (2900391357, 0); (3135119385, 0);
  (3381743652, 0); (3640468262, 0); (3911490479, 0); (4194930664, 0); (4490817383, 0); (4799149414, 0);
  (5119895020, 0); (5452990723, 0); (5798344727, 0); (6156074219, 0); (6526946777, 0); (6911870605, 0);
  (7311869141, 0); (7727412109, 7); (8159354004, 24); (8608525391, 59); (9076400391, 112); (9562682617, 199);
  (10065978516, 340); (10584631836, 562); (11116662109, 890); (11660067383, 1353); (12211547852, 1992); (12766873047, 2857);
  (13324668945, 3971); (13881331055, 5378); (14432139648, 7133); (14975615234, 9261); (15508256836, 11806); (16026115234, 14816);
  (16527322266, 18318); (17008789063, 22355); (17467613281, 26964); (17901621094, 32176); (18308433594, 38026); (18685718750, 44548);
  (19031289063, 51773); (19343511719, 59728); (19620042969, 68448); (19859390625, 77958); (20059931641, 88286); (20219664063, 99462);
  (20337863281, 111505); (20412308594, 124448); (20442078125, 138313); (20425718750, 153125); (20361816406, 168910); (20249511719, 185689);
  (20087085938, 203491); (19874025391, 222333); (19608572266, 242244); (19290226563, 263242); (18917460938, 285354); (18489707031, 308598);
  (18006925781, 332939); (17471839844, 358254); (16888687500, 384363); (16262046875, 411125); (15596695313, 438391); (14898453125, 466003);
  (14173324219, 493800); (13427769531, 521619); (12668257813, 549301); (11901339844, 576692); (11133304688, 603648); (10370175781, 630036);
  (9617515625, 655736); (8880453125, 680643); (8163375000, 704669); (7470343750, 727739); (6804421875, 749797); (6168531250, 770798);
  (5564382813, 790717); (4993796875, 809536); (4457375000, 827256); (3955960938, 843881); (3489234375, 859432); (3057265625, 873929);
  (2659140625, 887408); (2294242188, 899900); (1961500000, 911448); (1659476563, 922096); (1387546875, 931881); (1143250000, 940860);
  (926507813, 949064); (734992188, 956550); (568062500, 963352); (424414063, 969513); (302476563, 975078); (202484375, 980072);
  (122101563, 984542); (62781250, 988500); (22835938, 991984); (3757813, 995003); (0, 997630); (0, 1000000)].
