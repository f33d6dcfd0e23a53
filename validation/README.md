# Does the model compute what the program computes?

The theorems are about the Gallina model. This directory checks the model against numbers that the real program left in the repository. It is a test, not a
proof, and nothing in `rocq/` depends on it. `/repo` is only read; its code is not built or run.

How: outside of this repository, Coq's extraction turned the model into a program in which the type of the reals is the machine's `float` (with its `+`, `-`, `*`, `/`,
comparisons, `exp`, `sqrt` and `pow`), so that every rounding is the rounding of the machine. A driver of 35 lines, which read the files of `/repo` and called
`unit_test`, `simulate`, `Initialize` and `Update` of the model, printed the numbers below. Neither is kept here: this repository holds only Coq sources that
belong to the build. `compare.py` compares the rows that `simulate` returned for the two synthetic examples with the recorded ones.

## Results

* The unit test (`UnitTest.v`) passes with the configuration of the repository. After its first hour (twelve sub-steps with a new front, infiltration, motion and
  evapotranspiration) the model has the fronts of the benchmark that the real program printed:

  | | model | tests/main_unit_test_bmi.cxx:456-457, 520-522 |
  |---|---|---|
  | depth of front 1 (cm) | 4.5535523948960828 | 4.55355239489608365 |
  | moisture 1 | 0.21371581122514607 | 0.21371581122514613 |
  | moisture 2 | 0.17270389607163267 | 0.17270389607163267 |
  | moisture 3 | 0.25211383152603861 | 0.25211383152603861 |
  | moisture 4 | 0.17959348005962811 | 0.17959348005962811 |
  | infiltration (mm) | 1.8960000000000004 | 1.896 |
  | PET (mm) | 0.104 | 0.104 |
  | AET (mm) | 0.029800926205582383 | 0.02980092620558239 |

* `tests/outputs/synthetic1` and `synthetic2` hold 144 recorded rows each. The number of fronts agrees in all 288 rows and their layers in 286 (in two rows a front
  crosses a boundary one row later); the stored water differs by at most 0.17 mm. The recorded files come from a version with another `calc_Geff`: the very first new
  front is 39.99 mm deep there and 39.51 mm in the model, and this depth depends on nothing but the capillary drive and the constants of the soil. The benchmark of the
  unit test belongs to the present `calc_Geff`.
* `configs/config_lasam_Phillipsburg.txt`: 7500 Updates, printed balance -1.3e-08 cm.
* `configs/config_lasam_Bushland.txt`: `Initialize` reads outside of the soil table (finding 7 in DESIGN.md).
