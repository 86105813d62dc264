*.vo
*.vok
*.vos
*.glob
*.aux
.*.aux
.nia.cache
.lia.cache
.Makefile*
Makefile
Makefile.conf
*.d
.nra.cache
