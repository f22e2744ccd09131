*.vo
*.vok
*.vos
*.glob
*.aux
.*.aux
.lia.cache
.nia.cache
.nra.cache
.csdp.cache
Makefile
Makefile.conf
.Makefile.d
