Scripts around the model; none of them is needed to build it.

* `gen_real.py OUT` writes `RealData.v` from the tables in `/repo/data`.
* `gen_runs.py OUT` writes `RecordedRuns.v` from two results kept in `/repo/solutions_quantum`.
* `compare.py` compares the problems of the model with all results kept in `/repo` (needs the compiled model).
* `printed.py [CASES] [wisla]` compares the printed schedules of the model with those kept in `/repo` (about an hour for all).
