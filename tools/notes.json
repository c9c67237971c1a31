{
 "C84": {
  "note": "Over Num_E (exact arithmetic with IEEE NaN/infinity rules, no rounding). Draws are assumed to lie in (0, 1]; a row of zero draws would give NaN weights. Random initialisation for existence; any initialisation for the description of completed fits."
 },
 "C85": {
  "note": "The least-squares and inverse routines are oracles (only the shape of the least-squares result is assumed). Entries are described when the divisor is not 0."
 },
 "C86": {
  "note": "fit only; predict with lags that are not positive is not modelled. C86_positive compares two models by functional extensionality."
 },
 "C87": {
  "note": "In the theorems over the reals (C30-C40) the same series has normalization 1/0 = 0; C87 is the statement that applies to it. One component is not covered. C87_crom_fit assumes that the preceding convex coding returns, C87_crom_forecast that the weights and the dictionary are real."
 },
 "C88": {
  "note": "Over exact reals. C88_short_fit is for drawn starting values with all three updates on; C88_short_transform for an object whose transition model is stochastic (C33 gives that after a fit). C88_short_crom assumes that the convex coding returned."
 },
 "C89": {
  "note": "Over exact reals; in floating point the products and sums of integers are exact only below 2^53. When a local model has a single row of residuals after the presample, numpy broadcasts it to all times, and the statement says so."
 },
 "C90": {
  "note": "Generic over the number type and without axioms. Start indices out of range or excluded are covered by C10, negative ones by C09_negative_start."
 },
 "C91": {
  "note": "Over exact reals, where the shift cannot change ties; in floating point rounding can. The example shows that a negative scale and squaring do change the choice."
 },
 "C92": {
  "note": "Over exact reals; in floating point rounding can decide ties differently. The kernel statement asks for non-negative squared distances, since numpy's square root of a negative number is NaN and the model over R is not meant for it; the proof does not use this."
 },
 "C93": {
  "note": "Generic over the number type and without axioms. ArchetypalAnalysis.transform runs the same code on the kernel of the data. Without an integer random_state the generator advances and later calls differ."
 }
}
