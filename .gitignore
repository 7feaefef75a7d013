*.vo
*.vok
*.vos
*.glob
*.aux
.*.aux
.Makefile.d
Makefile
Makefile.conf
.lia.cache
.nia.cache
.nra.cache
.lia.cache
