{
 "C79": {
  "note": "The script's constants are right for up to two partial rounds (first word replaced) and refuted for three or more; the refutations carry explicit round constants."
 },
 "C80": {
  "note": "SHA-256 is modelled from FIPS 180-4, not from the source of hashlib; test vectors and the origin of the constants are examples."
 }
}