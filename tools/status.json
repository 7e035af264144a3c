{
 "C05": [
  "partial",
  "The full claim is refuted by C05_until_agrees_refuted: the cached string ignores the requested range's end, so after one read_bytes_at_until a later call with a shorter range answers a longer string. C05_until_partial / C05_until_agrees_exact give the exact conditions under which cached and direct reads agree."
 ],
 "C06": [
  "partial",
  "The full claim is refuted by C06_range_until_refuted: a delimiter lying just past the sub-range is visible through a ReadCacheRange. The remaining parts are proved."
 ],
 "C40": [
  "partial",
  "Proved for REL, RELA, group and dynamic sections; refuted for RELR by C40_relr_refuted / C40_relr_as_rela_refuted (encoder.rs relative_relocation_section_header sets SHT_RELA)."
 ],
 "C41": [
  "partial",
  "Proved for ELF, COFF, XCOFF (sizes 1..64) and Mach-O with the exceptions in the statement; refuted for RISC-V 32-bit relative relocations (C41_riscv_refuted), the SHARC type B encoding (C41_sharc_refuted), XCOFF sizes 0 and over 64 (C41_xcoff_size_refuted) and 8/16/64-bit PC-relative x86-64 Mach-O relocations (C41_macho_pcrel8_refuted)."
 ],
 "C42": [
  "partial",
  "Proved for little endian and for scattered entries; refuted for big endian by C42_big_refuted (src/macho.rs 3956 shifts r_symbolnum right instead of left)."
 ]
}