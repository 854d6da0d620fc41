{
 "force_proved": [
  "C55"
 ],
 "C55": "Stated for positive bounds. C55_negative_refuted shows that the restriction is needed: with a negative lower bound a result outside of the bounds, with infinite error, is accepted.",
 "C54": "For the go command the result is exact if the chosen g0 is the one of the synthetic data; the optimiser itself is an arbitrary function.",
 "C138": "Proved except for the separate inversion: an event whose origin has no depth raises TypeError in a log message (core.py:1492) and stops the run (C138_depth_refuted, C138_no_depth); the simultaneous inversion leaves out exactly its pairs."
}